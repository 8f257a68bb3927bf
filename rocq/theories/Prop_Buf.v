(** * Decoding does not depend on the kind of buffer (C72). *)
From Verif Require Import Base BaseFacts EnumModel Enums Header Bitflags EmptyEnums PduMacro DataTypes Pdus Spec ClassFacts PduProofs Buf.

(** Two outcomes agree: the same panic, or the same value with the same bytes left. *)
Definition agrees (T : buffer_type) {A} (x : outcome (A * buffer T)) (y : outcome (A * bytes)) : Prop :=
  match x, y with
  | Ok (a, s), Ok (b, rest) => a = b /\ content T s = rest
  | Panic e, Panic e' => e = e'
  | _, _ => False
  end.
(** The decoder [r] of the model is a program over [Buf]: on a buffer of any lawful type the
    program does what [r] does on the bytes. *)
Definition is_buf_program {A} (r : reader A) : Prop :=
  exists P : program A, forall T, lawful T -> forall s, agrees T (run T P s) (r (content T s)).

(** ** The two buffer types are lawful. *)
Theorem C72_flat_lawful : lawful flat_buffer.
Proof.
  split; [reflexivity|]. intros k s. cbn [buf_get flat_buffer content]. unfold get_uint.
  destruct (Nat.leb_spec k (length s)); repeat split; trivial.
Qed.
Lemma chunk_prefix s : exists rest, List.concat s = chunk s ++ rest.
Proof.
  induction s as [|c s [rest IH]]; [exists []; reflexivity|]. destruct c as [|x c]; [exists rest; exact IH|].
  exists (List.concat s). reflexivity.
Qed.
Lemma chunk_nonempty s : List.concat s <> [] -> chunk s <> [].
Proof. induction s as [|c s IH]; [trivial|]. destruct c as [|x c]; [exact IH | discriminate]. Qed.
Lemma advance_content n s : List.concat (advance n s) = skipn n (List.concat s).
Proof.
  revert n. induction s as [|c s IH]; intros n; [now destruct n|]. cbn [advance List.concat].
  rewrite skipn_app. destruct (Nat.leb_spec n (length c)) as [L|L].
  - cbn [List.concat]. replace (n - length c)%nat with 0%nat by lia. reflexivity.
  - rewrite IH, (skipn_all2 c) by lia. reflexivity.
Qed.
Lemma skip_skip (a b : nat) (bs : bytes) : skipn a (skipn b bs) = skipn (b + a) bs.
Proof. revert bs. induction b as [|b IH]; intros bs; [reflexivity|]. destruct bs as [|x bs]; [now rewrite !skipn_nil | exact (IH bs)]. Qed.
Lemma copy_content fuel : forall n s, (n <= fuel)%nat -> (n <= length (List.concat s))%nat ->
  fst (copy_to_slice fuel n s) = firstn n (List.concat s) /\ List.concat (snd (copy_to_slice fuel n s)) = skipn n (List.concat s).
Proof.
  induction fuel as [|fuel IH]; intros n s Hf Hn; cbn [copy_to_slice].
  - replace n with 0%nat by lia. split; reflexivity.
  - destruct (Nat.eqb_spec n 0) as [->|Z]; [split; reflexivity|].
    set (cnt := Nat.min (length (chunk s)) n).
    assert (NE : List.concat s <> []) by (intros E; rewrite E in Hn; cbn in Hn; lia).
    assert (P : (0 < cnt)%nat). { assert (X := chunk_nonempty s NE). unfold cnt. clear - X Z. destruct (chunk s) as [|x l]; [contradiction|]. destruct n; [contradiction|]. cbn [length Nat.min]. apply Nat.lt_0_succ. }
    destruct (IH (n - cnt)%nat (advance cnt s)) as [E1 E2]; [clearbody cnt; clear - Hf P; lia | rewrite advance_content, skipn_length; apply Nat.sub_le_mono_r; exact Hn|].
    destruct (copy_to_slice fuel (n - cnt) (advance cnt s)) as [out s']. cbn [fst snd] in *. subst out. rewrite E2, advance_content.
    destruct (chunk_prefix s) as [rest R].
    assert (F : firstn cnt (chunk s) = firstn cnt (List.concat s)).
    { rewrite R, firstn_app. replace (cnt - length (chunk s))%nat with 0%nat by (unfold cnt; lia). now rewrite firstn_O, app_nil_r. }
    split.
    + rewrite F, firstn_skipn_comm. replace (cnt + (n - cnt))%nat with n by (unfold cnt; lia).
      rewrite <- (firstn_skipn cnt (firstn n (List.concat s))) at 2. f_equal. rewrite firstn_firstn. f_equal. unfold cnt; lia.
    + rewrite skip_skip. f_equal. unfold cnt; lia.
Qed.
Theorem C72_chunked_lawful : lawful chunked_buffer.
Proof.
  split.
  - intros s. cbn [buf_remaining chunked_buffer content]. induction s as [|c s IH]; [reflexivity|].
    cbn [fold_right List.concat]. rewrite app_length, IH. unfold lenN. lia.
  - intros k s. cbn [buf_get chunked_buffer content]. unfold chunked_get.
    destruct (Nat.ltb_spec (length (List.concat s)) k) as [L|L]; [split; trivial|].
    destruct (chunk_prefix s) as [rest R]. destruct (Nat.leb_spec k (length (chunk s))) as [K|K].
    + split; [exact L|]. split; [|apply advance_content]. f_equal. f_equal. rewrite R, firstn_app.
      replace (k - length (chunk s))%nat with 0%nat by lia. now rewrite firstn_O, app_nil_r.
    + destruct (copy_content k k s (Nat.le_refl _) L) as [E1 E2]. destruct (copy_to_slice k k s) as [out s']. cbn [fst snd] in E1, E2.
      split; [exact L|]. split; [now rewrite E1 | exact E2].
Qed.

(** ** Any program gives the same on two lawful buffers with the same bytes; in particular it
    does not matter where a buffer is cut into pieces. *)
Theorem C72_same_bytes_same_result : forall A (P : program A) T T' s s', lawful T -> lawful T' -> content T s = content T' s' ->
  match run T P s, run T' P s' with
  | Ok (a, r), Ok (a', r') => a = a' /\ content T r = content T' r'
  | Panic e, Panic e' => e = e'
  | _, _ => False
  end.
Proof.
  intros A P T T' s s' [L1 L2] [L1' L2']. revert s s'. induction P as [a|e|k next IH|next IH]; intros s s' E; cbn [run].
  - auto.
  - reflexivity.
  - assert (X := L2 k s). assert (X' := L2' k s'). rewrite E in X.
    destruct (buf_get T k s) as [[x r]|e], (buf_get T' k s') as [[x' r']|e'].
    + destruct X as [_ [-> X]], X' as [_ [-> X']]. apply IH. congruence.
    + lia.
    + lia.
    + destruct X as [_ ->], X' as [_ ->]. reflexivity.
  - rewrite L1, L1', E. now apply IH.
Qed.

(** ** Every decoder of the crate is such a program. *)
(** With the program in hand (a [Type], so that programs can be put together). *)
Definition prog {A} (r : reader A) : Type := { P : program A | forall T, lawful T -> forall s, agrees T (run T P s) (r (content T s)) }.
Lemma prog_is {A} (r : reader A) : prog r -> is_buf_program r.
Proof. intros [P H]. now exists P. Qed.

Lemma prog_ret {A} (a : A) : prog (ret a).
Proof. exists (Return a). intros T L s. split; reflexivity. Defined.
Lemma prog_fail {A} e : prog (@rfail A e).
Proof. exists (Abort e). intros T L s. reflexivity. Defined.
Lemma prog_get k : prog (get_uint k).
Proof.
  exists (Get k Return). intros T [_ L] s. cbn [run]. assert (X := L k s). unfold get_uint.
  destruct (buf_get T k s) as [[x r]|e]; destruct (Nat.leb_spec k (length (content T s))); cbn [agrees].
  - tauto.
  - lia.
  - lia.
  - tauto.
Defined.
Fixpoint pbind {A B} (P : program A) (K : A -> program B) : program B :=
  match P with
  | Return a => K a
  | Abort e => Abort e
  | Get k next => Get k (fun x => pbind (next x) K)
  | Remaining next => Remaining (fun n => pbind (next n) K)
  end.
Lemma run_pbind T {A B} (P : program A) (K : A -> program B) s :
  run T (pbind P K) s = match run T P s with Ok (a, s') => run T (K a) s' | Panic e => Panic e end.
Proof.
  revert s. induction P as [a|e|k next IH|next IH]; intros s; cbn [pbind run]; trivial.
  destruct (buf_get T k s) as [[x s']|e]; trivial.
Qed.
Lemma prog_bind {A B} (r : reader A) (k : A -> reader B) : prog r -> (forall a, prog (k a)) -> prog (bind r k).
Proof.
  intros [P HP] HK. exists (pbind P (fun a => proj1_sig (HK a))). intros T L s. rewrite run_pbind. unfold bind.
  assert (X := HP T L s). destruct (run T P s) as [[a s']|e], (r (content T s)) as [[a' r']|e']; try (contradiction || exact X).
  destruct X as [<- <-]. exact (proj2_sig (HK a) T L s').
Defined.
Lemma prog_remaining : prog remaining.
Proof. exists (Remaining Return). intros T [L _] s. cbn [run agrees remaining]. split; [rewrite L; reflexivity | reflexivity]. Defined.
Lemma prog_eq {A} (r r' : reader A) : (forall bs, r bs = r' bs) -> prog r -> prog r'.
Proof. intros E [P H]. exists P. intros T L s. rewrite <- E. exact (H T L s). Defined.
Lemma prog_repeat {A} (r : reader A) : prog r -> forall n, prog (repeat_read n r).
Proof.
  intros H. induction n as [|n IH]; cbn [repeat_read]; [apply prog_ret|].
  apply prog_bind; [exact H|]. intros x. apply prog_bind; [exact IH|]. intros xs. apply prog_ret.
Defined.
(** [while buf.has_remaining() { v.push(buf.get_u8()) }] *)
Lemma prog_read_remaining : prog read_remaining.
Proof.
  refine (prog_eq (bind remaining (fun n => repeat_read (N.to_nat n) get_u8)) _ _ _).
  - intros bs. unfold bind, remaining, read_remaining. unfold lenN. rewrite Nat2N.id.
    assert (X := repeat_get_u8 bs []). rewrite app_nil_r in X. exact X.
  - apply prog_bind; [apply prog_remaining|]. intros n. apply prog_repeat, prog_get.
Defined.
Lemma prog_array {A} n d (r : reader A) : prog r -> prog (read_array n d r).
Proof. intros H. apply prog_bind; [now apply prog_repeat|]. intros l. apply prog_ret. Defined.
Lemma prog_enum e : prog (enum_deserialize e).
Proof. apply prog_bind; [apply prog_get|]. intros n. apply prog_ret. Defined.
Lemma prog_lift {A} (o : outcome A) : prog (rlift o).
Proof. destruct o as [a|e]; [exact (prog_ret a) | exact (prog_fail e)]. Defined.

Create HintDb pg.
#[local] Hint Resolve prog_ret prog_fail prog_get prog_remaining prog_read_remaining prog_enum prog_lift : pg.
Ltac prog_tac := repeat first
  [ solve [auto with pg nocore]
  | exact (prog_enum _) | exact (prog_get 1) | exact (prog_get 2) | exact (prog_get 4) | exact (prog_get 8)
  | simple apply prog_array
  | simple apply prog_repeat
  | simple apply prog_bind; [|intros ?]
  | match goal with |- prog (if ?b then _ else _) => destruct b end
  | match goal with |- prog (match ?x with _ => _ end) => destruct x end ].
Lemma AcousticBeamFundamentalParameter_deserialize_prog : prog AcousticBeamFundamentalParameter_deserialize.
Proof. unfold AcousticBeamFundamentalParameter_deserialize. prog_tac. Defined.
#[local] Hint Resolve AcousticBeamFundamentalParameter_deserialize_prog : pg.
Lemma AcousticBeamData_deserialize_prog : prog AcousticBeamData_deserialize.
Proof. unfold AcousticBeamData_deserialize. prog_tac. Defined.
#[local] Hint Resolve AcousticBeamData_deserialize_prog : pg.
Lemma AcousticEmitterSystem_deserialize_prog : prog AcousticEmitterSystem_deserialize.
Proof. unfold AcousticEmitterSystem_deserialize. prog_tac. Defined.
#[local] Hint Resolve AcousticEmitterSystem_deserialize_prog : pg.
Lemma Vector3Float_deserialize_prog : prog Vector3Float_deserialize.
Proof. unfold Vector3Float_deserialize. prog_tac. Defined.
#[local] Hint Resolve Vector3Float_deserialize_prog : pg.
Lemma AcousticEmitterSystemData_deserialize_prog : prog AcousticEmitterSystemData_deserialize.
Proof. unfold AcousticEmitterSystemData_deserialize. prog_tac. Defined.
#[local] Hint Resolve AcousticEmitterSystemData_deserialize_prog : pg.
Lemma AggregateId_deserialize_prog : prog AggregateId_deserialize.
Proof. unfold AggregateId_deserialize. prog_tac. Defined.
#[local] Hint Resolve AggregateId_deserialize_prog : pg.
Lemma AggregateMarking_deserialize_prog : prog AggregateMarking_deserialize.
Proof. unfold AggregateMarking_deserialize. prog_tac. Defined.
#[local] Hint Resolve AggregateMarking_deserialize_prog : pg.
Lemma AngularVelocity_deserialize_prog : prog AngularVelocity_deserialize.
Proof. unfold AngularVelocity_deserialize. prog_tac. Defined.
#[local] Hint Resolve AngularVelocity_deserialize_prog : pg.
Lemma AntennaPattern_deserialize_prog (length : u16) : prog (AntennaPattern_deserialize length).
Proof. unfold AntennaPattern_deserialize. prog_tac. Defined.
#[local] Hint Resolve AntennaPattern_deserialize_prog : pg.
Lemma AntennaPattern_deserialize_with_len_prog (len : N) : prog (AntennaPattern_deserialize_with_len len).
Proof. unfold AntennaPattern_deserialize_with_len. prog_tac. Defined.
#[local] Hint Resolve AntennaPattern_deserialize_with_len_prog : pg.
Lemma ApaData_deserialize_prog : prog ApaData_deserialize.
Proof. unfold ApaData_deserialize. prog_tac. Defined.
#[local] Hint Resolve ApaData_deserialize_prog : pg.
Lemma AttributeRecord_deserialize_prog : prog AttributeRecord_deserialize.
Proof. unfold AttributeRecord_deserialize. prog_tac. Defined.
#[local] Hint Resolve AttributeRecord_deserialize_prog : pg.
Lemma SimulationAddress_deserialize_prog : prog SimulationAddress_deserialize.
Proof. unfold SimulationAddress_deserialize. prog_tac. Defined.
#[local] Hint Resolve SimulationAddress_deserialize_prog : pg.
Lemma EntityId_deserialize_simulation_address_prog : prog EntityId_deserialize_simulation_address.
Proof. unfold EntityId_deserialize_simulation_address. prog_tac. Defined.
#[local] Hint Resolve EntityId_deserialize_simulation_address_prog : pg.
Lemma EntityId_deserialize_prog : prog EntityId_deserialize.
Proof. unfold EntityId_deserialize. prog_tac. Defined.
#[local] Hint Resolve EntityId_deserialize_prog : pg.
Lemma AttributeRecordSet_deserialize_prog : prog AttributeRecordSet_deserialize.
Proof. unfold AttributeRecordSet_deserialize. prog_tac. Defined.
#[local] Hint Resolve AttributeRecordSet_deserialize_prog : pg.
Lemma BeamData_deserialize_prog : prog BeamData_deserialize.
Proof. unfold BeamData_deserialize. prog_tac. Defined.
#[local] Hint Resolve BeamData_deserialize_prog : pg.
Lemma ClockTime_deserialize_prog : prog ClockTime_deserialize.
Proof. unfold ClockTime_deserialize. prog_tac. Defined.
#[local] Hint Resolve ClockTime_deserialize_prog : pg.
Lemma FixedDatumRecord_deserialize_prog : prog FixedDatumRecord_deserialize.
Proof. unfold FixedDatumRecord_deserialize. prog_tac. Defined.
#[local] Hint Resolve FixedDatumRecord_deserialize_prog : pg.
Lemma VariableDatumRecord_deserialize_prog : prog VariableDatumRecord_deserialize.
Proof. unfold VariableDatumRecord_deserialize. prog_tac. Defined.
#[local] Hint Resolve VariableDatumRecord_deserialize_prog : pg.
Lemma LinearAcceleration_deserialize_prog : prog LinearAcceleration_deserialize.
Proof. unfold LinearAcceleration_deserialize. prog_tac. Defined.
#[local] Hint Resolve LinearAcceleration_deserialize_prog : pg.
Lemma DeadReckoningParameters_deserialize_prog : prog DeadReckoningParameters_deserialize.
Proof. unfold DeadReckoningParameters_deserialize. prog_tac. Defined.
#[local] Hint Resolve DeadReckoningParameters_deserialize_prog : pg.
Lemma EntityCoordinateVector_deserialize_prog : prog EntityCoordinateVector_deserialize.
Proof. unfold EntityCoordinateVector_deserialize. prog_tac. Defined.
#[local] Hint Resolve EntityCoordinateVector_deserialize_prog : pg.
Lemma EventId_deserialize_prog : prog EventId_deserialize.
Proof. unfold EventId_deserialize. prog_tac. Defined.
#[local] Hint Resolve EventId_deserialize_prog : pg.
Lemma DirectedEnergyDamage_deserialize_prog : prog DirectedEnergyDamage_deserialize.
Proof. unfold DirectedEnergyDamage_deserialize. prog_tac. Defined.
#[local] Hint Resolve DirectedEnergyDamage_deserialize_prog : pg.
Lemma FundamentalParameterData_deserialize_prog : prog FundamentalParameterData_deserialize.
Proof. unfold FundamentalParameterData_deserialize. prog_tac. Defined.
#[local] Hint Resolve FundamentalParameterData_deserialize_prog : pg.
Lemma TrackJamTarget_deserialize_prog : prog TrackJamTarget_deserialize.
Proof. unfold TrackJamTarget_deserialize. prog_tac. Defined.
#[local] Hint Resolve TrackJamTarget_deserialize_prog : pg.
Lemma ElectromagneticEmissionBeamData_deserialize_prog : prog ElectromagneticEmissionBeamData_deserialize.
Proof. unfold ElectromagneticEmissionBeamData_deserialize. prog_tac. Defined.
#[local] Hint Resolve ElectromagneticEmissionBeamData_deserialize_prog : pg.
Lemma EmitterSystem_deserialize_prog : prog EmitterSystem_deserialize.
Proof. unfold EmitterSystem_deserialize. prog_tac. Defined.
#[local] Hint Resolve EmitterSystem_deserialize_prog : pg.
Lemma ElectromagneticEmissionSystemData_deserialize_prog : prog ElectromagneticEmissionSystemData_deserialize.
Proof. unfold ElectromagneticEmissionSystemData_deserialize. prog_tac. Defined.
#[local] Hint Resolve ElectromagneticEmissionSystemData_deserialize_prog : pg.
Lemma EntityMarking_deserialize_prog : prog EntityMarking_deserialize.
Proof. unfold EntityMarking_deserialize. prog_tac. Defined.
#[local] Hint Resolve EntityMarking_deserialize_prog : pg.
Lemma EntityType_deserialize_prog : prog EntityType_deserialize.
Proof. unfold EntityType_deserialize. prog_tac. Defined.
#[local] Hint Resolve EntityType_deserialize_prog : pg.
Lemma Environment_deserialize_prog : prog Environment_deserialize.
Proof. unfold Environment_deserialize. prog_tac. Defined.
#[local] Hint Resolve Environment_deserialize_prog : pg.
Lemma EulerAngles_deserialize_prog : prog EulerAngles_deserialize.
Proof. unfold EulerAngles_deserialize. prog_tac. Defined.
#[local] Hint Resolve EulerAngles_deserialize_prog : pg.
Lemma FundamentalOperationalData_deserialize_prog : prog FundamentalOperationalData_deserialize.
Proof. unfold FundamentalOperationalData_deserialize. prog_tac. Defined.
#[local] Hint Resolve FundamentalOperationalData_deserialize_prog : pg.
Lemma GridAxisDescriptor_deserialize_prog : prog GridAxisDescriptor_deserialize.
Proof. unfold GridAxisDescriptor_deserialize. prog_tac. Defined.
#[local] Hint Resolve GridAxisDescriptor_deserialize_prog : pg.
Lemma GridDataRecord_deserialize_prog : prog GridDataRecord_deserialize.
Proof. unfold GridDataRecord_deserialize. prog_tac. Defined.
#[local] Hint Resolve GridDataRecord_deserialize_prog : pg.
Lemma IFFFundamentalParameterData_deserialize_prog : prog IFFFundamentalParameterData_deserialize.
Proof. unfold IFFFundamentalParameterData_deserialize. prog_tac. Defined.
#[local] Hint Resolve IFFFundamentalParameterData_deserialize_prog : pg.
Lemma IntercomCommunicationsParameters_deserialize_prog : prog IntercomCommunicationsParameters_deserialize.
Proof. unfold IntercomCommunicationsParameters_deserialize. prog_tac. Defined.
#[local] Hint Resolve IntercomCommunicationsParameters_deserialize_prog : pg.
Lemma LayerHeader_deserialize_prog : prog LayerHeader_deserialize.
Proof. unfold LayerHeader_deserialize. prog_tac. Defined.
#[local] Hint Resolve LayerHeader_deserialize_prog : pg.
Lemma WorldCoordinate_deserialize_prog : prog WorldCoordinate_deserialize.
Proof. unfold WorldCoordinate_deserialize. prog_tac. Defined.
#[local] Hint Resolve WorldCoordinate_deserialize_prog : pg.
Lemma LinearSegmentParameter_deserialize_prog : prog LinearSegmentParameter_deserialize.
Proof. unfold LinearSegmentParameter_deserialize. prog_tac. Defined.
#[local] Hint Resolve LinearSegmentParameter_deserialize_prog : pg.
Lemma LinearVelocity_deserialize_prog : prog LinearVelocity_deserialize.
Proof. unfold LinearVelocity_deserialize. prog_tac. Defined.
#[local] Hint Resolve LinearVelocity_deserialize_prog : pg.
Lemma MinefieldIdentifier_deserialize_prog : prog MinefieldIdentifier_deserialize.
Proof. unfold MinefieldIdentifier_deserialize. prog_tac. Defined.
#[local] Hint Resolve MinefieldIdentifier_deserialize_prog : pg.
Lemma ModulationParameters_deserialize_prog (length : u8) : prog (ModulationParameters_deserialize length).
Proof. unfold ModulationParameters_deserialize. prog_tac. Defined.
#[local] Hint Resolve ModulationParameters_deserialize_prog : pg.
Lemma ModulationParameters_deserialize_with_len_prog (len : N) : prog (ModulationParameters_deserialize_with_len len).
Proof. unfold ModulationParameters_deserialize_with_len. prog_tac. Defined.
#[local] Hint Resolve ModulationParameters_deserialize_with_len_prog : pg.
Lemma ModulationType_deserialize_prog : prog ModulationType_deserialize.
Proof. unfold ModulationType_deserialize. prog_tac. Defined.
#[local] Hint Resolve ModulationType_deserialize_prog : pg.
Lemma MunitionDescriptor_deserialize_prog : prog MunitionDescriptor_deserialize.
Proof. unfold MunitionDescriptor_deserialize. prog_tac. Defined.
#[local] Hint Resolve MunitionDescriptor_deserialize_prog : pg.
Lemma NamedLocation_deserialize_prog : prog NamedLocation_deserialize.
Proof. unfold NamedLocation_deserialize. prog_tac. Defined.
#[local] Hint Resolve NamedLocation_deserialize_prog : pg.
Lemma ObjectIdentifier_deserialize_prog : prog ObjectIdentifier_deserialize.
Proof. unfold ObjectIdentifier_deserialize. prog_tac. Defined.
#[local] Hint Resolve ObjectIdentifier_deserialize_prog : pg.
Lemma ObjectType_deserialize_prog : prog ObjectType_deserialize.
Proof. unfold ObjectType_deserialize. prog_tac. Defined.
#[local] Hint Resolve ObjectType_deserialize_prog : pg.
Lemma Point_deserialize_prog : prog Point_deserialize.
Proof. unfold Point_deserialize. prog_tac. Defined.
#[local] Hint Resolve Point_deserialize_prog : pg.
Lemma PropulsionSystemData_deserialize_prog : prog PropulsionSystemData_deserialize.
Proof. unfold PropulsionSystemData_deserialize. prog_tac. Defined.
#[local] Hint Resolve PropulsionSystemData_deserialize_prog : pg.
Lemma RadioEntityType_deserialize_prog : prog RadioEntityType_deserialize.
Proof. unfold RadioEntityType_deserialize. prog_tac. Defined.
#[local] Hint Resolve RadioEntityType_deserialize_prog : pg.
Lemma RecordSpecificationElement_deserialize_prog (m : profile) : prog (RecordSpecificationElement_deserialize m).
Proof. unfold RecordSpecificationElement_deserialize. prog_tac. Defined.
#[local] Hint Resolve RecordSpecificationElement_deserialize_prog : pg.
Lemma RecordSpecification_deserialize_prog (m : profile) : prog (RecordSpecification_deserialize m).
Proof. unfold RecordSpecification_deserialize. prog_tac. Defined.
#[local] Hint Resolve RecordSpecification_deserialize_prog : pg.
Lemma Relationship_deserialize_prog : prog Relationship_deserialize.
Proof. unfold Relationship_deserialize. prog_tac. Defined.
#[local] Hint Resolve Relationship_deserialize_prog : pg.
Lemma SecondaryOperationalData_deserialize_prog : prog SecondaryOperationalData_deserialize.
Proof. unfold SecondaryOperationalData_deserialize. prog_tac. Defined.
#[local] Hint Resolve SecondaryOperationalData_deserialize_prog : pg.
Lemma ShaftRPMs_deserialize_prog : prog ShaftRPMs_deserialize.
Proof. unfold ShaftRPMs_deserialize. prog_tac. Defined.
#[local] Hint Resolve ShaftRPMs_deserialize_prog : pg.
Lemma SimulationIdentifier_deserialize_prog : prog SimulationIdentifier_deserialize.
Proof. unfold SimulationIdentifier_deserialize. prog_tac. Defined.
#[local] Hint Resolve SimulationIdentifier_deserialize_prog : pg.
Lemma StandardVariableRecords_deserialize_prog : prog StandardVariableRecords_deserialize.
Proof. unfold StandardVariableRecords_deserialize. prog_tac. Defined.
#[local] Hint Resolve StandardVariableRecords_deserialize_prog : pg.
Lemma StandardVariableSpecification_deserialize_prog : prog StandardVariableSpecification_deserialize.
Proof. unfold StandardVariableSpecification_deserialize. prog_tac. Defined.
#[local] Hint Resolve StandardVariableSpecification_deserialize_prog : pg.
Lemma StandardVariableSpecification_deserialize_field_prog : prog StandardVariableSpecification_deserialize_field.
Proof. unfold StandardVariableSpecification_deserialize_field. prog_tac. Defined.
#[local] Hint Resolve StandardVariableSpecification_deserialize_field_prog : pg.
Lemma SupplyQuantity_deserialize_prog : prog SupplyQuantity_deserialize.
Proof. unfold SupplyQuantity_deserialize. prog_tac. Defined.
#[local] Hint Resolve SupplyQuantity_deserialize_prog : pg.
Lemma SystemId_deserialize_prog : prog SystemId_deserialize.
Proof. unfold SystemId_deserialize. prog_tac. Defined.
#[local] Hint Resolve SystemId_deserialize_prog : pg.
Lemma VariableParameter_deserialize_prog : prog VariableParameter_deserialize.
Proof. unfold VariableParameter_deserialize. prog_tac. Defined.
#[local] Hint Resolve VariableParameter_deserialize_prog : pg.
Lemma VariableTransmitterParameters_deserialize_prog : prog VariableTransmitterParameters_deserialize.
Proof. unfold VariableTransmitterParameters_deserialize. prog_tac. Defined.
#[local] Hint Resolve VariableTransmitterParameters_deserialize_prog : pg.
Lemma Vector3Double_deserialize_prog : prog Vector3Double_deserialize.
Proof. unfold Vector3Double_deserialize. prog_tac. Defined.
#[local] Hint Resolve Vector3Double_deserialize_prog : pg.
Lemma VectoringNozzleSystemData_deserialize_prog : prog VectoringNozzleSystemData_deserialize.
Proof. unfold VectoringNozzleSystemData_deserialize. prog_tac. Defined.
#[local] Hint Resolve VectoringNozzleSystemData_deserialize_prog : pg.
Lemma VelocityVector_deserialize_prog : prog VelocityVector_deserialize.
Proof. unfold VelocityVector_deserialize. prog_tac. Defined.
#[local] Hint Resolve VelocityVector_deserialize_prog : pg.

(** *** The headers. *)
Lemma PduHeader_deserialize_prog : prog PduHeader_deserialize.
Proof. unfold PduHeader_deserialize. prog_tac. Defined.
Lemma LiveEntityPduHeader_deserialize_prog : prog LiveEntityPduHeader_deserialize.
Proof. unfold LiveEntityPduHeader_deserialize. prog_tac. Defined.
#[local] Hint Resolve PduHeader_deserialize_prog LiveEntityPduHeader_deserialize_prog : pg.

(** A decoder of some type. *)
Definition any_decoder := { A : Type & reader A }.
Definition decoder {A} (r : reader A) : any_decoder := existT (fun A => reader A) A r.
(** The decoders of the headers and of all record types ([len8], [len16], [len] are the
    explicit length arguments that some of them take). *)
Definition record_decoders (m : profile) (len8 : u8) (len16 : u16) (len : N) : list any_decoder :=
  [ decoder PduHeader_deserialize; decoder LiveEntityPduHeader_deserialize;
    decoder AcousticBeamFundamentalParameter_deserialize;
    decoder AcousticBeamData_deserialize;
    decoder AcousticEmitterSystem_deserialize;
    decoder Vector3Float_deserialize;
    decoder AcousticEmitterSystemData_deserialize;
    decoder AggregateId_deserialize;
    decoder AggregateMarking_deserialize;
    decoder AngularVelocity_deserialize;
    decoder (AntennaPattern_deserialize len16);
    decoder (AntennaPattern_deserialize_with_len len);
    decoder ApaData_deserialize;
    decoder AttributeRecord_deserialize;
    decoder SimulationAddress_deserialize;
    decoder EntityId_deserialize_simulation_address;
    decoder EntityId_deserialize;
    decoder AttributeRecordSet_deserialize;
    decoder BeamData_deserialize;
    decoder ClockTime_deserialize;
    decoder FixedDatumRecord_deserialize;
    decoder VariableDatumRecord_deserialize;
    decoder LinearAcceleration_deserialize;
    decoder DeadReckoningParameters_deserialize;
    decoder EntityCoordinateVector_deserialize;
    decoder EventId_deserialize;
    decoder DirectedEnergyDamage_deserialize;
    decoder FundamentalParameterData_deserialize;
    decoder TrackJamTarget_deserialize;
    decoder ElectromagneticEmissionBeamData_deserialize;
    decoder EmitterSystem_deserialize;
    decoder ElectromagneticEmissionSystemData_deserialize;
    decoder EntityMarking_deserialize;
    decoder EntityType_deserialize;
    decoder Environment_deserialize;
    decoder EulerAngles_deserialize;
    decoder FundamentalOperationalData_deserialize;
    decoder GridAxisDescriptor_deserialize;
    decoder GridDataRecord_deserialize;
    decoder IFFFundamentalParameterData_deserialize;
    decoder IntercomCommunicationsParameters_deserialize;
    decoder LayerHeader_deserialize;
    decoder WorldCoordinate_deserialize;
    decoder LinearSegmentParameter_deserialize;
    decoder LinearVelocity_deserialize;
    decoder MinefieldIdentifier_deserialize;
    decoder (ModulationParameters_deserialize len8);
    decoder (ModulationParameters_deserialize_with_len len);
    decoder ModulationType_deserialize;
    decoder MunitionDescriptor_deserialize;
    decoder NamedLocation_deserialize;
    decoder ObjectIdentifier_deserialize;
    decoder ObjectType_deserialize;
    decoder Point_deserialize;
    decoder PropulsionSystemData_deserialize;
    decoder RadioEntityType_deserialize;
    decoder (RecordSpecificationElement_deserialize m);
    decoder (RecordSpecification_deserialize m);
    decoder Relationship_deserialize;
    decoder SecondaryOperationalData_deserialize;
    decoder ShaftRPMs_deserialize;
    decoder SimulationIdentifier_deserialize;
    decoder StandardVariableRecords_deserialize;
    decoder StandardVariableSpecification_deserialize;
    decoder StandardVariableSpecification_deserialize_field;
    decoder SupplyQuantity_deserialize;
    decoder SystemId_deserialize;
    decoder VariableParameter_deserialize;
    decoder VariableTransmitterParameters_deserialize;
    decoder Vector3Double_deserialize;
    decoder VectoringNozzleSystemData_deserialize;
    decoder VelocityVector_deserialize ].
Theorem C72_records : forall m len8 len16 len r, In r (record_decoders m len8 len16 len) -> is_buf_program (projT2 r).
Proof.
  intros m len8 len16 len r I. unfold record_decoders in I.
  repeat (destruct I as [<-|I]; [apply prog_is; cbn [projT2 decoder]; auto with pg nocore|]). destruct I.
Qed.

(** *** The bodies and the PDUs. *)
Definition field_prog (f : field) : Type :=
  match f_len_attr f with None => prog (c_des (f_codec f)) | Some (_, r) => forall n, prog (r n) end.
Fixpoint fields_prog (fs : list field) : Type :=
  match fs with [] => unit | f :: fs' => (field_prog f * fields_prog fs')%type end.
Lemma field_deserialize_prog env f : field_prog f -> prog (field_deserialize env f).
Proof.
  unfold field_prog, field_deserialize. destruct (f_len_attr f) as [[l r]|]; [|trivial].
  intros H. destruct (lookup l env); [apply H | apply prog_fail].
Defined.
Lemma body_deserialize_prog : forall fs, fields_prog fs -> forall env, prog (body_deserialize env fs).
Proof.
  induction fs as [|f fs IH]; intros H env; cbn [body_deserialize]; [apply prog_ret|]. destruct H as [Hf Hs].
  apply prog_bind; [exact (field_deserialize_prog env f Hf)|]. intros x.
  apply prog_bind; [exact (IH Hs _)|]. intros xs. apply prog_ret.
Defined.
Lemma deserialize_prog c : fields_prog (cls_fields c) -> prog (deserialize c).
Proof.
  intros H.
  refine (prog_eq (bind PduHeader_deserialize (fun h =>
    if enum_eqb (pdu_type h) (cls_type c)
    then bind (body_deserialize [] (cls_fields c)) (fun b => ret (ROk (mk_pdu h b)))
    else ret (RErr (InvalidHeader (cls_type c) (pdu_type h))))) _ _ _).
  - intros bs. unfold deserialize, bind, ret. destruct (PduHeader_deserialize bs) as [[h rest]|e]; trivial.
    destruct (enum_eqb (pdu_type h) (cls_type c)); trivial.
  - apply prog_bind; [exact PduHeader_deserialize_prog|]. intros h. destruct (enum_eqb (pdu_type h) (cls_type c)); [|apply prog_ret].
    apply prog_bind; [exact (body_deserialize_prog _ H [])|]. intros b. apply prog_ret.
Defined.
Lemma without_header_prog c h : fields_prog (cls_fields c) -> prog (fun bs => deserialize_without_header c bs h).
Proof.
  intros H. refine (prog_eq (bind (body_deserialize [] (cls_fields c)) (fun b => ret (ROk (mk_pdu h b)))) _ _ _).
  - intros bs. unfold deserialize_without_header, bind, ret. destruct (body_deserialize [] (cls_fields c) bs) as [[b rest]|e]; trivial.
  - apply prog_bind; [exact (body_deserialize_prog _ H [])|]. intros b. apply prog_ret.
Defined.
Ltac field_tac :=
  cbv [field_prog f_len_attr f_codec plain u8_field len_field];
  lazymatch goal with
  | |- prog (c_des ?c) => let c' := eval hnf in c in change (prog (c_des c')); cbn [c_des]; prog_tac
  | |- forall n, prog (option_deserialize_with_len _ n) => intros n; unfold option_deserialize_with_len; prog_tac
  end.
Ltac head_of t := match t with ?f _ => head_of f | _ => t end.
Lemma class_fields_prog : forall m c, In c (all_pdus m) -> inhabited (fields_prog (cls_fields c)).
Proof.
  intros m. by_class. all_classes ltac:(constructor; match goal with |- fields_prog (cls_fields ?c) => let h := head_of c in unfold h; cbn [cls_fields]; cbn [fields_prog]; repeat (apply pair; [field_tac|]); exact tt end).
Qed.
(** Decoding a PDU, with or without its header, is a program over [Buf]: the caller may pass
    any buffer. *)
Theorem C72_any_buffer : forall m c, In c (all_pdus m) ->
  is_buf_program (deserialize c) /\ (forall h, is_buf_program (fun bs => deserialize_without_header c bs h)).
Proof.
  intros m c I. destruct (class_fields_prog m c I) as [H]. split; [|intros h]; apply prog_is; [now apply deserialize_prog | now apply without_header_prog].
Qed.
(** In particular: a datagram that arrives in several pieces decodes like the same bytes in
    one piece, wherever it is cut. *)
Theorem C72_pieces : forall m c, In c (all_pdus m) -> exists P : program (result (pdu c) DISError),
  (forall bs, run flat_buffer P bs = deserialize c bs) /\
  forall pieces,
    match run chunked_buffer P pieces, deserialize c (List.concat pieces) with
    | Ok (r, pieces'), Ok (r', rest) => r = r' /\ List.concat pieces' = rest
    | Panic e, Panic e' => e = e'
    | _, _ => False
    end.
Proof.
  intros m c I. destruct (C72_any_buffer m c I) as [[P H] _]. exists P. split.
  - intros bs. assert (X := H flat_buffer C72_flat_lawful bs). unfold agrees in X. cbn [content flat_buffer] in X.
    destruct (run flat_buffer P bs) as [[a s]|e], (deserialize c bs) as [[b rest]|e']; try contradiction; [destruct X as [-> ->]; reflexivity | now subst].
  - intros pieces. exact (H chunked_buffer C72_chunked_lawful pieces).
Qed.

(** ** Examples. *)
(** The notion says something: a decoder that looks at the next byte without taking it is not
    a program over [get_*] and [remaining]. *)
Lemma run_flat_suffix A (P : program A) : forall bs a rest, run flat_buffer P bs = Ok (a, rest) -> (length rest <= length bs)%nat.
Proof.
  induction P as [a|e|k next IH|next IH]; intros bs a' rest; cbn [run]; intros E.
  - injection E as _ <-. apply Nat.le_refl.
  - discriminate.
  - cbn [buf_get flat_buffer] in E. unfold get_uint in E. destruct (Nat.leb k (length bs)); [|discriminate].
    apply IH in E. rewrite skipn_length in E. refine (Nat.le_trans _ _ _ E (Nat.le_sub_l _ _)).
  - exact (IH _ bs a' rest E).
Qed.
Lemma run_flat_blind A (P : program A) : forall bs a, run flat_buffer P bs = Ok (a, bs) ->
  forall bs', length bs' = length bs -> run flat_buffer P bs' = Ok (a, bs').
Proof.
  induction P as [a|e|k next IH|next IH]; intros bs a' E bs' L; cbn [run] in *.
  - injection E as <-. reflexivity.
  - discriminate.
  - cbn [buf_get flat_buffer] in *. unfold get_uint in *. rewrite L. destruct (Nat.leb_spec k (length bs)) as [K|K]; [|discriminate].
    destruct k as [|k].
    + cbn [firstn skipn] in *. exact (IH _ bs a' E bs' L).
    + exfalso. apply run_flat_suffix in E. rewrite skipn_length in E. clear - E K. destruct (length bs) as [|n]; [exact (Nat.nle_succ_0 _ K)|].
      cbn [Nat.sub] in E. exact (Nat.nle_succ_diag_l _ (Nat.le_trans _ _ _ E (Nat.le_sub_l _ _))).
  - cbn [buf_remaining flat_buffer] in *. rewrite L. exact (IH _ bs a' E bs' L).
Qed.
Theorem C72_peeking_is_not_a_program : ~ is_buf_program (fun bs => Ok (hd (as_u8 0) bs, bs)).
Proof.
  intros [P H]. assert (X := H flat_buffer C72_flat_lawful [as_u8 1]). assert (Y := H flat_buffer C72_flat_lawful [as_u8 2]).
  cbn [agrees content flat_buffer hd] in X, Y.
  destruct (run flat_buffer P [as_u8 1]) as [[a s]|e] eqn:E1; [|contradiction]. destruct X as [-> X]. change (s = [as_u8 1]) in X. subst s.
  apply run_flat_blind with (bs' := [as_u8 2]) in E1; [|reflexivity]. rewrite E1 in Y. destruct Y as [Y _].
  apply (f_equal (@uval 1)) in Y. vm_compute in Y. discriminate.
Qed.
(** A 16-bit number cut in the middle. *)
Example C72_cut_number : chunked_get 2 [[as_u8 1]; []; [as_u8 2; as_u8 3]] = Ok (as_u16 258, [[as_u8 3]]).
Proof. vm_compute. reflexivity. Qed.
(** A Fire PDU in three pieces, the first cut inside the header: the program that decodes it
    from one piece decodes it from the three, with nothing left. *)
Example C72_pieces_fire :
  let pieces := [map B [7; 1; 2; 2; 0]; map B [0; 0; 5; 0; 96; 0; 0; 9]; repeat (B 7) 83] in
  exists (P : program (result (pdu FirePdu) DISError)) p pieces',
    run flat_buffer P (List.concat pieces) = Ok (ROk p, []) /\
    run chunked_buffer P pieces = Ok (ROk p, pieces') /\ List.concat pieces' = [].
Proof.
  intros pieces. destruct (C72_pieces Checked FirePdu) as [P [F C]]; [cbn; tauto|]. exists P.
  assert (D : exists p, deserialize FirePdu (List.concat pieces) = Ok (ROk p, [])).
  { assert (X : match deserialize FirePdu (List.concat pieces) with Ok (ROk p, []) => true | _ => false end = true) by (vm_compute; reflexivity).
    destruct (deserialize FirePdu (List.concat pieces)) as [[[p|e] [|b l]]|e]; try discriminate. now exists p. }
  destruct D as [p D]. specialize (C pieces). rewrite F, D in *. exists p.
  destruct (run chunked_buffer P pieces) as [[r pieces']|e]; [|contradiction]. destruct C as [-> C]. exists pieces'. auto.
Qed.

Definition Prop_Buf_theorems : True :=
  let _ := @C72_flat_lawful in
  let _ := @C72_chunked_lawful in
  let _ := @C72_same_bytes_same_result in
  let _ := @C72_records in
  let _ := @C72_any_buffer in
  let _ := @C72_pieces in
  let _ := @C72_peeking_is_not_a_program in
  I.
Print Assumptions Prop_Buf_theorems.
