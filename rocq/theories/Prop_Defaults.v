(** * The default values of the record types (C71). Generated by tools/gen_defaults.py.
    [T::default()] of each of the 61 record types that have one. *)
From Verif Require Import Base BaseFacts EnumModel Enums EnumFacts Header PduMacro PduMacroFacts DataTypes Fixed DataTypesFacts RecordFacts Spec.

(** The default [d] of a record is written as the bytes [l], [FieldLen] says so, and reading
    these bytes, whatever follows them, gives the default back and leaves what follows: no part
    of the default differs from what [l] says. *)
Definition default_is {T} (c : codec T) (d : T) (l : list N) : Prop :=
  c_ser c d = Ok (map B l) /\ (c_len c d = N.of_nat (length l)) /\
  forall rest, c_des c (map B l ++ rest) = Ok (d, rest).
(** Records that are only part of other records have no field traits: [serialize] and
    [deserialize] (there is no [FieldLen] to compare with). *)
Definition plain_codec {T} (ser : T -> bytes) (des : reader T) : codec T :=
  mk_codec (fun v => Ok (ser v)) des (fun v => lenN (ser v)).

Ltac default_vm := split; [vm_compute; reflexivity | split; [vm_compute; reflexivity | intros rest; vm_compute; reflexivity]].
Lemma default_fixed {T} n nf (c : codec T) d l : fixed_codec n nf c -> nf d = d -> c_ser c d = Ok (map B l) -> default_is c d l.
Proof.
  intros F Nd S. destruct (fc_ser _ _ _ F d) as [b [Sb [L R]]]. rewrite Sb in S. injection S as ->.
  split; [exact Sb|]. split; [rewrite (fc_len _ _ _ F d), <- L, map_length; reflexivity|].
  intros rest. rewrite R, Nd. reflexivity.
Qed.
Lemma default_rw {T} n (w : T -> bytes) r len d l : fixed_rw n w r -> (forall v, len v = N.of_nat n) -> Ok (w d) = Ok (map B l) ->
  default_is (mk_codec (fun v => Ok (w v)) r len) d l.
Proof. intros F Hl E. exact (default_fixed n _ _ _ _ (fixed_codec_of_rw n w r len F Hl) eq_refl E). Qed.
Ltac default_tac := first
  [ refine (default_rw 32 AggregateMarking_serialize AggregateMarking_deserialize _ _ _ _ _ _); [exact AggregateMarking_fixed | reflexivity | vm_compute; reflexivity]
  | refine (default_rw 24 IFFFundamentalParameterData_serialize IFFFundamentalParameterData_deserialize _ _ _ _ _ _); [exact IFFFundamentalParameterData_fixed | reflexivity | vm_compute; reflexivity]
  | refine (default_rw 16 VariableParameter_serialize VariableParameter_deserialize _ _ _ _ _ _); [exact VariableParameter_fixed | reflexivity | vm_compute; reflexivity]
  | refine (default_fixed 40 zero_other_parameters _ _ _ _ _ _); [exact DeadReckoningParameters_fc | reflexivity | vm_compute; reflexivity]
  | default_vm ].

(** 48 of them are all zero bytes. *)
Theorem C71_zero : forall m : profile,
  default_is (plain_codec AcousticBeamFundamentalParameter_serialize AcousticBeamFundamentalParameter_deserialize) AcousticBeamFundamentalParameter_default (repeat 0 20) /\
  default_is (plain_codec AcousticBeamData_serialize AcousticBeamData_deserialize) AcousticBeamData_default (repeat 0 25) /\
  default_is AcousticEmitterSystem_codec AcousticEmitterSystem_default (repeat 0 4) /\
  default_is Vector3Float_codec Vector3Float_default (repeat 0 12) /\
  default_is (plain_codec AcousticEmitterSystemData_serialize AcousticEmitterSystemData_deserialize) AcousticEmitterSystemData_default (repeat 0 20) /\
  default_is AggregateId_codec AggregateId_default (repeat 0 6) /\
  default_is AggregateMarking_codec AggregateMarking_default (repeat 0 32) /\
  default_is (plain_codec AngularVelocity_serialize AngularVelocity_deserialize) AngularVelocity_default (repeat 0 12) /\
  default_is AntennaPattern_codec AntennaPattern_default (repeat 0 0) /\
  default_is ApaData_codec ApaData_default (repeat 0 4) /\
  default_is AttributeRecord_codec AttributeRecord_default (repeat 0 6) /\
  default_is BeamData_codec BeamData_default (repeat 0 20) /\
  default_is ClockTime_codec ClockTime_default (repeat 0 8) /\
  default_is LinearAcceleration_codec LinearAcceleration_default (repeat 0 12) /\
  default_is DeadReckoningParameters_codec DeadReckoningParameters_default (repeat 0 40) /\
  default_is EntityCoordinateVector_codec EntityCoordinateVector_default (repeat 0 12) /\
  default_is FundamentalParameterData_codec FundamentalParameterData_default (repeat 0 40) /\
  default_is ElectromagneticEmissionBeamData_codec ElectromagneticEmissionBeamData_default (repeat 0 52) /\
  default_is EntityType_codec EntityType_default (repeat 0 8) /\
  default_is Environment_codec Environment_default (repeat 0 8) /\
  default_is EulerAngles_codec EulerAngles_default (repeat 0 12) /\
  default_is FundamentalOperationalData_codec FundamentalOperationalData_default (repeat 0 16) /\
  default_is IFFFundamentalParameterData_codec IFFFundamentalParameterData_default (repeat 0 24) /\
  default_is IntercomCommunicationsParameters_codec IntercomCommunicationsParameters_default (repeat 0 8) /\
  default_is LayerHeader_codec LayerHeader_default (repeat 0 4) /\
  default_is WorldCoordinate_codec WorldCoordinate_default (repeat 0 24) /\
  default_is LinearSegmentParameter_codec LinearSegmentParameter_default (repeat 0 66) /\
  default_is LinearVelocity_codec LinearVelocity_default (repeat 0 12) /\
  default_is ModulationParameters_codec ModulationParameters_default (repeat 0 0) /\
  default_is ModulationType_codec ModulationType_default (repeat 0 8) /\
  default_is MunitionDescriptor_codec MunitionDescriptor_default (repeat 0 16) /\
  default_is NamedLocation_codec NamedLocation_default (repeat 0 4) /\
  default_is ObjectType_codec ObjectType_default (repeat 0 4) /\
  default_is Point_codec Point_default (repeat 0 8) /\
  default_is PropulsionSystemData_codec PropulsionSystemData_default (repeat 0 8) /\
  default_is RadioEntityType_codec RadioEntityType_default (repeat 0 8) /\
  default_is (RecordSpecification_codec m) RecordSpecification_default (repeat 0 4) /\
  default_is Relationship_codec Relationship_default (repeat 0 4) /\
  default_is SecondaryOperationalData_codec SecondaryOperationalData_default (repeat 0 4) /\
  default_is ShaftRPMs_codec ShaftRPMs_default (repeat 0 8) /\
  default_is StandardVariableRecords_codec StandardVariableRecords_default (repeat 0 6) /\
  default_is StandardVariableSpecification_codec StandardVariableSpecification_default (repeat 0 2) /\
  default_is SupplyQuantity_codec SupplyQuantity_default (repeat 0 12) /\
  default_is SystemId_codec SystemId_default (repeat 0 6) /\
  default_is VariableParameter_codec VariableParameter_default (repeat 0 16) /\
  default_is (plain_codec Vector3Double_serialize Vector3Double_deserialize) Vector3Double_default (repeat 0 24) /\
  default_is VectoringNozzleSystemData_codec VectoringNozzleSystemData_default (repeat 0 8) /\
  default_is (plain_codec VelocityVector_serialize VelocityVector_deserialize) VelocityVector_default (repeat 0 12).
Proof. intros m. destruct m; repeat (match goal with |- default_is _ _ _ /\ _ => split; [default_tac|] end); default_tac. Qed.

(** Identifiers start at site 1, application 1; an emitter system starts with name 2, the
    first of its enumeration. *)
Theorem C71_other :
  default_is SimulationAddress_codec SimulationAddress_default ([0; 1; 0; 1]) /\
  default_is EntityId_codec EntityId_default ([0; 1; 0; 1; 0; 0]) /\
  default_is AttributeRecordSet_codec AttributeRecordSet_default ([0; 1; 0; 1; 0; 0; 0; 0]) /\
  default_is EventId_codec EventId_default ([0; 1; 0; 1; 0; 0]) /\
  default_is DirectedEnergyDamage_codec DirectedEnergyDamage_default (repeat 0 32 ++ [0; 1; 0; 1; 0; 0; 0; 0]) /\
  default_is TrackJamTarget_codec TrackJamTarget_default ([0; 1; 0; 1; 0; 0; 0; 0]) /\
  default_is (plain_codec EmitterSystem_serialize EmitterSystem_deserialize) EmitterSystem_default ([0; 2; 0; 0]) /\
  default_is ElectromagneticEmissionSystemData_codec ElectromagneticEmissionSystemData_default ([0; 0; 0; 0; 0; 2; 0; 0] ++ repeat 0 12) /\
  default_is MinefieldIdentifier_codec MinefieldIdentifier_default ([0; 1; 0; 1; 0; 0]) /\
  default_is ObjectIdentifier_codec ObjectIdentifier_default ([0; 1; 0; 1; 0; 0]) /\
  default_is SimulationIdentifier_codec SimulationIdentifier_default ([0; 1; 0; 1; 0; 0]).
Proof. repeat (match goal with |- default_is _ _ _ /\ _ => split; [default_tac|] end); default_tac. Qed.

(** The two exceptions. A default entity marking says it is 12 bytes long and writes one;
    variable transmitter parameters are written as six zero bytes of which three are read. *)
Theorem C71_exceptions :
  (c_ser EntityMarking_codec EntityMarking_default = Ok [B 0] /\ c_len EntityMarking_codec EntityMarking_default = 12) /\
  (c_ser VariableTransmitterParameters_codec VariableTransmitterParameters_default = Ok (map B (repeat 0 6)) /\
   c_len VariableTransmitterParameters_codec VariableTransmitterParameters_default = 6 /\
   forall rest, c_des VariableTransmitterParameters_codec (map B (repeat 0 6) ++ rest)
     = Ok (VariableTransmitterParameters_default, map B (repeat 0 3) ++ rest)).
Proof.
  split; [split; vm_compute; reflexivity|]. split; [vm_compute; reflexivity|]. split; [vm_compute; reflexivity|].
  intros rest. vm_compute. reflexivity.
Qed.
Example C71_example : c_des EntityId_codec (map B [0; 1; 0; 1; 0; 0; 9]) = Ok (EntityId_default, [B 9]).
Proof. destruct C71_other as [_ [[_ [_ H]] _]]. exact (H [B 9]). Qed.

(** What the theorems above rest on (one traversal for all of them; not part of the model). *)
Definition Prop_Defaults_theorems : True :=
  let _ := @C71_zero in
  let _ := @C71_other in
  let _ := @C71_exceptions in
  I.
Print Assumptions Prop_Defaults_theorems.
