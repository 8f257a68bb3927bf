(** * The constants [SerializedLength::LENGTH] (C22).
    Every type that declares one writes that many bytes, whatever its value, and reads that
    many, whatever the input; entity markings are the exception. *)
From Verif Require Import Base BaseFacts EnumModel Enums EnumFacts Fixed Header HeaderFacts PduMacro MacroHeader PduMacroFacts
  DataTypes DataTypesFacts Spec RecordFacts PdusFacts Prop_Records.

(** ** Specification: [n] bytes are written, [n] bytes are read, fewer are refused by a panic. *)
Definition takes_length {T} (n : N) (write : T -> bytes) (read : bytes -> outcome (T * bytes)) : Prop :=
  (forall v, N.of_nat (length (write v)) = n) /\
  (forall bs, n <= N.of_nat (length bs) -> exists v, read bs = Ok (v, skipn (N.to_nat n) bs)) /\
  (forall bs, N.of_nat (length bs) < n -> read bs = Panic Underflow).

Lemma takes_length_of {T} n k (w : T -> bytes) r : N.to_nat n = k -> (forall v, length (w v) = k) -> exact_reader r k -> takes_length n w r.
Proof.
  intros E L [Y X]. split; [intros v; rewrite L; lia|]. split.
  - intros bs H. destruct (X (firstn k bs)) as [v R]; [apply firstn_length_le; lia|]. exists v.
    specialize (R (skipn k bs)). rewrite firstn_skipn in R. rewrite E. exact R.
  - intros bs H. apply Y. lia.
Qed.
Lemma takes_fixed {T} n k (w : T -> bytes) r : N.to_nat n = k -> fixed_rw k w r -> takes_length n w r.
Proof. intros E [L [_ X]]. exact (takes_length_of n k w r E L X). Qed.

Theorem C22_length_constants :
  takes_length AngularVelocity_LENGTH AngularVelocity_serialize AngularVelocity_deserialize /\
  takes_length ApaData_LENGTH ApaData_serialize ApaData_deserialize /\
  takes_length SimulationAddress_LENGTH SimulationAddress_serialize SimulationAddress_deserialize /\
  takes_length EntityId_LENGTH EntityId_serialize EntityId_deserialize /\
  takes_length BeamData_LENGTH BeamData_serialize BeamData_deserialize /\
  takes_length LinearAcceleration_LENGTH LinearAcceleration_serialize LinearAcceleration_deserialize /\
  takes_length DeadReckoningParameters_LENGTH DeadReckoningParameters_serialize DeadReckoningParameters_deserialize /\
  takes_length EntityCoordinateVector_LENGTH EntityCoordinateVector_serialize EntityCoordinateVector_deserialize /\
  takes_length EventId_LENGTH EventId_serialize EventId_deserialize /\
  takes_length EmitterSystem_LENGTH EmitterSystem_serialize EmitterSystem_deserialize /\
  takes_length EntityType_LENGTH EntityType_serialize EntityType_deserialize /\
  takes_length EulerAngles_LENGTH EulerAngles_serialize EulerAngles_deserialize /\
  takes_length FundamentalOperationalData_LENGTH FundamentalOperationalData_serialize FundamentalOperationalData_deserialize /\
  takes_length IFFFundamentalParameterData_LENGTH IFFFundamentalParameterData_serialize IFFFundamentalParameterData_deserialize /\
  takes_length LayerHeader_LENGTH LayerHeader_serialize LayerHeader_deserialize /\
  takes_length WorldCoordinate_LENGTH WorldCoordinate_serialize WorldCoordinate_deserialize /\
  takes_length LinearVelocity_LENGTH LinearVelocity_serialize LinearVelocity_deserialize /\
  takes_length PropulsionSystemData_LENGTH PropulsionSystemData_serialize PropulsionSystemData_deserialize /\
  takes_length SecondaryOperationalData_LENGTH SecondaryOperationalData_serialize SecondaryOperationalData_deserialize /\
  takes_length ShaftRPMs_LENGTH ShaftRPMs_serialize ShaftRPMs_deserialize /\
  takes_length SimulationIdentifier_LENGTH SimulationIdentifier_serialize SimulationIdentifier_deserialize /\
  takes_length SystemId_LENGTH SystemId_serialize SystemId_deserialize /\
  takes_length VariableParameter_LENGTH VariableParameter_serialize VariableParameter_deserialize /\
  takes_length Vector3Double_LENGTH Vector3Double_serialize Vector3Double_deserialize /\
  takes_length VectoringNozzleSystemData_LENGTH VectoringNozzleSystemData_serialize VectoringNozzleSystemData_deserialize /\
  takes_length PduHeader_LENGTH PduHeader_serialize PduHeader_deserialize /\
  takes_length LiveEntityPduHeader_LENGTH LiveEntityPduHeader_serialize LiveEntityPduHeader_deserialize.
Proof.
  repeat match goal with |- _ /\ _ => split end;
  first [ solve [refine (takes_fixed _ _ _ _ _ _); [vm_compute; reflexivity | solve [exact PduHeader_fixed | exact LiveEntityPduHeader_fixed | eauto with fx nocore]]]
        | solve [eapply takes_fixed; [| solve [exact PduHeader_fixed | exact LiveEntityPduHeader_fixed | eauto with fx nocore]]; vm_compute; reflexivity]
        | idtac ].
  - refine (takes_length_of DeadReckoningParameters_LENGTH 40 _ _ eq_refl _ (fc_exact _ _ _ DeadReckoningParameters_fc)).
    intros v. destruct (fc_ser _ _ _ DeadReckoningParameters_fc v) as [b [E [L _]]]. injection E as ->. exact L.
  - refine (takes_length_of SimulationIdentifier_LENGTH 6 _ _ eq_refl _ (fc_exact _ _ _ SimulationIdentifier_fc)).
    intros v. destruct (fc_ser _ _ _ SimulationIdentifier_fc v) as [b [E [L _]]]. injection E as ->. exact L.
Qed.
(** The exception: a marking declares 12 bytes, writes one byte and its string, and reads one byte. *)
Theorem C22_marking_length_refuted : EntityMarking_LENGTH = 12 /\ ~ takes_length EntityMarking_LENGTH EntityMarking_serialize EntityMarking_deserialize /\
  (forall v, N.of_nat (length (EntityMarking_serialize v)) = 1 + N.of_nat (length (EntityMarking_entity_marking_string v))) /\
  (forall b rest, exists v, EntityMarking_deserialize (b :: rest) = Ok (v, rest)).
Proof.
  assert (W : forall v, N.of_nat (length (EntityMarking_serialize v)) = 1 + N.of_nat (length (EntityMarking_entity_marking_string v))).
  { intros v. destruct (C28_encoding v) as [E _]. apply (f_equal (@length N)) in E. rewrite map_length in E. cbn [length] in E. rewrite map_length in E.
    etransitivity; [exact (f_equal N.of_nat E)|]. rewrite Nat2N.inj_succ. apply N.add_1_l || (rewrite <- N.add_1_l; reflexivity). }
  repeat split; [|exact W|].
  - intros [H _]. specialize (H EntityMarking_default). rewrite W in H. discriminate H.
  - intros b rest. destruct (C28_decoding b rest) as [v [E _]]. eauto.
Qed.
(** Concretely: a location is 24 bytes, and of 25 bytes one is left. *)
Example C22_length_example : WorldCoordinate_LENGTH = 24 /\ WorldCoordinate_deserialize (repeat (B 0) 25) = Ok (WorldCoordinate_default, [B 0]).
Proof. split; vm_compute; reflexivity. Qed.

(** What the theorems above rest on (one traversal for all of them; not part of the model). *)
Definition Prop_Lengths_theorems : True :=
  let _ := @C22_length_constants in
  let _ := @C22_marking_length_refuted in
  I.
Print Assumptions Prop_Lengths_theorems.
