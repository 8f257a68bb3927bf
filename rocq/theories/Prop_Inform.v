(** * C56: the datagram determines the PDU. Vocabulary in [SpecInform]. *)
From Verif Require Import Base BaseFacts EnumModel Enums EnumFacts Fixed Header HeaderFacts PduMacro PduMacroFacts
  DataTypes DataTypesFacts Bitflags BitflagsFacts Pdus PduFields Spec Wire SpecDatum RecordFacts PdusFacts ClassFacts PduProofs
  DatumFacts SpecSpecial SpecialFacts SpecialExtent SpecialTransmitter Prop_Transmitter SpecInform InformFacts.

Ltac peelu := repeat first [eapply bdet_unknown_fixed; [cdx|] | apply bdet_unknown_det; [exact FrozenBehavior_det|]
  | apply bdet_unknown_det; [exact ObjectStateAppearanceGeneral_det|] ].
Ltac lastu := first [apply bdet_nil | eapply bdet_unknown_last; cdx].
Ltac inall := unfold all_pdus; repeat (first [left; reflexivity | right]).

Theorem C56_unconditional : forall m c, In c (all_pdus m) -> ~ In (cls_name c) conditional_pdus ->
  datagram_determines c (fun _ => True).
Proof.
  intros m c I N. assert (M : mem_string (cls_name c) conditional_pdus = false).
  { destruct (mem_string (cls_name c) conditional_pdus) eqn:E; [|reflexivity]. exfalso. apply N, mem_string_In, E. }
  clear N. revert M. refine (all_intro (fun c => In c (all_pdus m) -> mem_string (cls_name c) conditional_pdus = false ->
    datagram_determines c (fun _ => True)) m _ c I I). clear c I.
  all_classes ltac:(intros I M; first [discriminate M | apply (plain_determined m _ I); [reflexivity|]; intros p q _ _;
    match goal with |- agree (cls_fields ?c) _ _ => enough (D : bdet (cls_fields c) unknown) by (apply D; exact Logic.I); unfold c, cls_fields end; peelu; lastu]).
Qed.

(** Conditional classes. *)
Definition determined_entry (m : profile) (k : condition) : Prop :=
  In (projT1 k) (all_pdus m) /\ datagram_determines (projT1 k) (projT2 k).
Lemma entry_intro m c (P : pdu c -> Prop) : In c (all_pdus m) -> no_len_attr (cls_fields c) = true ->
  (forall h h', bdet (cls_fields c) (fun v w => P (mk_pdu h v) /\ P (mk_pdu h' w))) -> determined_entry m (when c P).
Proof. intros I A D. split; [exact I|]. exact (bdet_plain m c I P A D). Qed.
Definition on (m : profile) (i : nat) : Prop := match nth_error (conditions m) i with Some k => determined_entry m k | None => False end.
Ltac fronts := repeat (eapply fr_cons; [cdx|]); apply fr_nil.
Ltac head_of c := match c with ?f _ => f | _ => c end.
Ltac start := cbv [on nth_error conditions]; match goal with |- determined_entry ?m (when ?c _) => apply (entry_intro m);
    [inall | reflexivity|]; let h := fresh "h" in let h' := fresh "h'" in intros h h';
    eapply (bdet_split (cls_fields c)); [let f := head_of c in unfold f, cls_fields; fronts| |] end.

Lemma counts_same k A (n : uint k) (l l' : list A) : counts n l -> counts n l' -> same_length l l'.
Proof. apply counts_len. Qed.
Lemma on_ActionRequestPdu m : on m 13.
Proof.
  start; [|eapply end_lists_last; [cdx | exact VariableDatumRecord_det | exact datum_nonempty]]. cbv [ActionRequestPdu_fixed_datum_records ActionRequestPdu_number_of_fixed_datum_records ActionRequestPdu_variable_datum_records body fst snd].
  intros x v w [[C F] [C' F']]. exact (conj (counts_same _ _ _ _ _ C C') (conj F F')).
Qed.
Lemma on_ActionResponsePdu m : on m 14.
Proof.
  start; [|eapply end_lists_last; [cdx | exact VariableDatumRecord_det | exact datum_nonempty]]. cbv [ActionResponsePdu_fixed_datum_records ActionResponsePdu_number_of_fixed_datum_records ActionResponsePdu_variable_datum_records body fst snd].
  intros x v w [[C F] [C' F']]. exact (conj (counts_same _ _ _ _ _ C C') (conj F F')).
Qed.
Lemma on_DataQueryPdu m : on m 15.
Proof.
  start; [|eapply end_lists_last; [cdx | exact VariableDatumRecord_det | exact datum_nonempty]]. cbv [DataQueryPdu_fixed_datum_records DataQueryPdu_number_of_fixed_datum_records DataQueryPdu_variable_datum_records body fst snd].
  intros x v w [[C F] [C' F']]. exact (conj (counts_same _ _ _ _ _ C C') (conj F F')).
Qed.
Lemma on_SetDataPdu m : on m 16.
Proof.
  start; [|eapply end_lists_last; [cdx | exact VariableDatumRecord_det | exact datum_nonempty]]. cbv [SetDataPdu_fixed_datum_records SetDataPdu_number_of_fixed_datum_records SetDataPdu_variable_datum_records body fst snd].
  intros x v w [[C F] [C' F']]. exact (conj (counts_same _ _ _ _ _ C C') (conj F F')).
Qed.
Lemma on_DataPdu m : on m 17.
Proof.
  start; [|eapply end_lists_last; [cdx | exact VariableDatumRecord_det | exact datum_nonempty]]. cbv [DataPdu_fixed_datum_records DataPdu_number_of_fixed_datum_records DataPdu_variable_datum_records body fst snd].
  intros x v w [[C F] [C' F']]. exact (conj (counts_same _ _ _ _ _ C C') (conj F F')).
Qed.
Lemma on_EventReportPdu m : on m 18.
Proof.
  start; [|eapply end_lists_last; [cdx | exact VariableDatumRecord_det | exact datum_nonempty]]. cbv [EventReportPdu_fixed_datum_records EventReportPdu_number_of_fixed_datum_records EventReportPdu_variable_datum_records body fst snd].
  intros x v w [[C F] [C' F']]. exact (conj (counts_same _ _ _ _ _ C C') (conj F F')).
Qed.
Lemma on_CommentPdu m : on m 19.
Proof.
  start; [|eapply end_lists_last; [cdx | exact VariableDatumRecord_det | exact datum_nonempty]]. cbv [CommentPdu_fixed_datum_records CommentPdu_number_of_fixed_datum_records CommentPdu_variable_datum_records body fst snd].
  intros x v w [[C F] [C' F']]. exact (conj (counts_same _ _ _ _ _ C C') (conj F F')).
Qed.
Lemma on_ActionRequestReliablePdu m : on m 20.
Proof.
  start; [|eapply end_lists_last; [cdx | exact VariableDatumRecord_det | exact datum_nonempty]]. cbv [ActionRequestReliablePdu_fixed_datum_records ActionRequestReliablePdu_number_of_fixed_datum_records ActionRequestReliablePdu_variable_datum_records body fst snd].
  intros x v w [[C F] [C' F']]. exact (conj (counts_same _ _ _ _ _ C C') (conj F F')).
Qed.
Lemma on_ActionResponseReliablePdu m : on m 21.
Proof.
  start; [|eapply end_lists_last; [cdx | exact VariableDatumRecord_det | exact datum_nonempty]]. cbv [ActionResponseReliablePdu_fixed_datum_records ActionResponseReliablePdu_number_of_fixed_datum_records ActionResponseReliablePdu_variable_datum_records body fst snd].
  intros x v w [[C F] [C' F']]. exact (conj (counts_same _ _ _ _ _ C C') (conj F F')).
Qed.
Lemma on_SetDataReliablePdu m : on m 23.
Proof.
  start; [|eapply end_lists_last; [cdx | exact VariableDatumRecord_det | exact datum_nonempty]]. cbv [SetDataReliablePdu_fixed_datum_records SetDataReliablePdu_number_of_fixed_datum_records SetDataReliablePdu_variable_datum_records body fst snd].
  intros x v w [[C F] [C' F']]. exact (conj (counts_same _ _ _ _ _ C C') (conj F F')).
Qed.
Lemma on_DataReliablePdu m : on m 24.
Proof.
  start; [|eapply end_lists_last; [cdx | exact VariableDatumRecord_det | exact datum_nonempty]]. cbv [DataReliablePdu_fixed_datum_records DataReliablePdu_number_of_fixed_datum_records DataReliablePdu_variable_datum_records body fst snd].
  intros x v w [[C F] [C' F']]. exact (conj (counts_same _ _ _ _ _ C C') (conj F F')).
Qed.
Lemma on_EventReportReliablePdu m : on m 25.
Proof.
  start; [|eapply end_lists_last; [cdx | exact VariableDatumRecord_det | exact datum_nonempty]]. cbv [EventReportReliablePdu_fixed_datum_records EventReportReliablePdu_number_of_fixed_datum_records EventReportReliablePdu_variable_datum_records body fst snd].
  intros x v w [[C F] [C' F']]. exact (conj (counts_same _ _ _ _ _ C C') (conj F F')).
Qed.
Lemma on_CommentReliablePdu m : on m 26.
Proof.
  start; [|eapply end_lists_last; [cdx | exact VariableDatumRecord_det | exact datum_nonempty]]. cbv [CommentReliablePdu_fixed_datum_records CommentReliablePdu_number_of_fixed_datum_records CommentReliablePdu_variable_datum_records body fst snd].
  intros x v w [[C F] [C' F']]. exact (conj (counts_same _ _ _ _ _ C C') (conj F F')).
Qed.
Lemma on_SupplementalEmissionPdu m : on m 2.
Proof.
  start; [|eapply end_lists2; cdx]. cbv [SupplementalEmissionPdu_number_of_propulsion_systems SupplementalEmissionPdu_propulsion_system_data body fst snd]. intros x v w [C C']. exact (counts_same _ _ _ _ _ C C').
Qed.
Lemma on_MinefieldStatePdu m : on m 9.
Proof.
  start; [|eapply end_lists2; cdx]. cbv [MinefieldStatePdu_number_of_perimeter_points MinefieldStatePdu_perimeter_points body fst snd]. intros x v w [C C']. exact (counts_same _ _ _ _ _ C C').
Qed.
Lemma on_MinefieldQueryPdu m : on m 10.
Proof.
  start; [|eapply end_lists2; cdx]. cbv [MinefieldQueryPdu_number_of_perimeter_points MinefieldQueryPdu_requested_perimeter_points body fst snd]. intros x v w [C C']. exact (counts_same _ _ _ _ _ C C').
Qed.
Lemma on_DataQueryReliablePdu m : on m 22.
Proof.
  start; [|eapply end_lists2; cdx]. cbv [DataQueryReliablePdu_fixed_datum_ids DataQueryReliablePdu_number_of_fixed_datum_records body fst snd]. intros x v w [C C']. exact (counts_same _ _ _ _ _ C C').
Qed.
Lemma on_UnderwaterAcousticPdu m : on m 1.
Proof.
  start; [|eapply end_lists3; cdx]. cbv [UnderwaterAcousticPdu_apa_data UnderwaterAcousticPdu_number_of_apas UnderwaterAcousticPdu_number_of_shafts UnderwaterAcousticPdu_shaft_rpms body fst snd].
  intros x v w [[C1 C2] [C1' C2']]. exact (conj (counts_same _ _ _ _ _ C1 C1') (counts_same _ _ _ _ _ C2 C2')).
Qed.
Lemma on_ElectromagneticEmissionsPdu m : on m 0.
Proof.
  start; [|eapply end_last; [exact EmissionSystemData_det | exact emission_nonempty]]. cbv [ElectromagneticEmissionsPdu_systems body fst snd]. intros x v w K. exact K.
Qed.
Lemma on_AttributePdu m : on m 4.
Proof.
  start; [|eapply end_last; [exact AttributeRecordSet_det | exact attribute_nonempty]]. cbv [AttributePdu_attribute_record_sets body fst snd]. intros x v w K. exact K.
Qed.
Lemma on_SetRecordReliablePdu m : on m 27.
Proof.
  start; [|eapply end_det; exact (RecordSpecification_det m)]. cbv [SetRecordReliablePdu_record_sets body fst snd]. intros x v w K. exact K.
Qed.
Lemma on_EntityStatePdu m : on m 3.
Proof.
  start; [|apply end_entity_state]. cbv [EntityStatePdu_dead_reckoning_parameters EntityStatePdu_entity_marking body fst snd]. intros x v w [[A B] [A' B']]. exact (conj (conj B B') (conj A A')).
Qed.
Lemma on_TransferOwnershipPdu m : on m 6.
Proof.
  start; [|do 2 (eapply and_det; [exact SimulationIdentifier_det|]); repeat (eapply and_fixed; [cdx|]); eapply end_det; exact (RecordSpecification_det m)].
  cbv [TransferOwnershipPdu_originating_id TransferOwnershipPdu_receiving_id TransferOwnershipPdu_record_information body fst snd]. intros x v w [[A [B C]] [A' [B' C']]]. exact (conj (conj A A') (conj (conj B B') (conj I (conj I (conj I (conj I (conj C C'))))))).
Qed.
Lemma on_InformationOperationsActionPdu m : on m 7.
Proof.
  start; [|do 2 (eapply and_det; [exact SimulationIdentifier_det|]); repeat (eapply and_fixed; [cdx|]); eapply end_det; exact StandardVariableSpecification_det].
  cbv [InformationOperationsActionPdu_io_records InformationOperationsActionPdu_originating_simulation_id InformationOperationsActionPdu_receiving_simulation_id body fst snd]. intros x v w [[A [B C]] [A' [B' C']]]. exact (conj (conj A A') (conj (conj B B') (conj I (conj I (conj I (conj I (conj I (conj I (conj I (conj I (conj I (conj C C')))))))))))).
Qed.
Lemma on_InformationOperationsReportPdu m : on m 8.
Proof.
  start; [|do 1 (eapply and_det; [exact SimulationIdentifier_det|]); repeat (eapply and_fixed; [cdx|]); eapply end_det; exact StandardVariableSpecification_det].
  cbv [InformationOperationsReportPdu_io_records InformationOperationsReportPdu_originating_simulation_id body fst snd]. intros x v w [[A C] [A' C']]. exact (conj (conj A A') (conj I (conj I (conj I (conj I (conj I (conj I (conj I (conj C C'))))))))).
Qed.
Lemma on_GriddedDataPdu m : on m 28.
Proof.
  start; [|apply end_gridded]. cbv [GriddedDataPdu_grid_axis_descriptors GriddedDataPdu_grid_data_list GriddedDataPdu_number_of_grid_axes body fst snd]. intros x v w [[A [B C]] [A' [B' C']]].
  exact (conj (conj B (conj B' (counts_same _ _ _ _ _ A A'))) (conj C C')).
Qed.
Lemma aligned_same {A B C} (a a' : list A) (b b' : list B) (p p' : list C) : same_length a a' -> same_length b b' ->
  aligns 4 (6 * length a + 6 * length b) (length p) -> aligns 4 (6 * length a' + 6 * length b') (length p') -> same_length p p'.
Proof. unfold same_length. intros -> ->. apply aligns_eq. Qed.
Lemma on_AggregateStatePdu m : on m 5.
Proof.
  start; [|repeat (eapply and_list; [cdx|]); eapply and_fixed; [cdx|]; apply end_last; [exact VariableDatumRecord_det | exact datum_nonempty]].
  cbv [AggregateStatePdu_aggregate_id_list AggregateStatePdu_entity_id_list AggregateStatePdu_number_of_dis_aggregates AggregateStatePdu_number_of_dis_entities AggregateStatePdu_number_of_silent_aggregate_types AggregateStatePdu_number_of_silent_entity_types AggregateStatePdu_padding AggregateStatePdu_silent_aggregate_system_list AggregateStatePdu_silent_entity_system_list AggregateStatePdu_variable_datum_list body fst snd]. intros x v w [[A [B [C [D [E F]]]]] [A' [B' [C' [D' [E' F']]]]]].
  assert (SA := counts_same _ _ _ _ _ A A'). assert (SB := counts_same _ _ _ _ _ B B').
  assert (SC := aligned_same _ _ _ _ _ _ SA SB C C'). assert (SD := counts_same _ _ _ _ _ D D'). assert (SE := counts_same _ _ _ _ _ E E').
  exact (conj SA (conj SB (conj SC (conj SD (conj SE (conj I (conj F F'))))))).
Qed.
Lemma filled_same {A} (n : u8) (l l' : list (option A)) : per_mine n l -> per_mine n l' -> filled l l'.
Proof. intros [C F] [C' F']. exact (conj F (conj F' (counts_same _ _ _ _ _ C C'))). Qed.
Lemma mines_same {S M V A1 A2 A3 A4 A5 A6 A7 A8 A9 A10 A11 A12 : Type} (n0 n : u8) (s s' : list S) (t t' : list M) (l1 l1' : list (option A1)) (l2 l2' : list (option A2)) (l3 l3' : list (option A3)) (l4 l4' : list (option A4)) (l5 l5' : list (option A5)) (l6 l6' : list (option A6)) (l7 l7' : list (option A7)) (l8 l8' : list (option A8)) (l9 l9' : list (option A9)) (l10 l10' : list (option A10)) (l11 l11' : list (option A11)) (l12 l12' : list (option A12)) (k k' : list (option u8)) (v v' : list (option (list V))) :
  counts n0 s /\ counts n t /\ per_mine n l1 /\ per_mine n l2 /\ per_mine n l3 /\ per_mine n l4 /\ per_mine n l5 /\ per_mine n l6 /\ per_mine n l7 /\ per_mine n l8 /\ per_mine n l9 /\ per_mine n l10 /\ per_mine n l11 /\ per_mine n l12 /\ per_mine n k /\ Forall2 vertices_counted k v ->
  counts n0 s' /\ counts n t' /\ per_mine n l1' /\ per_mine n l2' /\ per_mine n l3' /\ per_mine n l4' /\ per_mine n l5' /\ per_mine n l6' /\ per_mine n l7' /\ per_mine n l8' /\ per_mine n l9' /\ per_mine n l10' /\ per_mine n l11' /\ per_mine n l12' /\ per_mine n k' /\ Forall2 vertices_counted k' v' ->
  same_length s s' /\ same_length t t' /\ filled l1 l1' /\ filled l2 l2' /\ filled l3 l3' /\ filled l4 l4' /\ filled l5 l5' /\ filled l6 l6' /\ filled l7 l7' /\ filled l8 l8' /\ filled l9 l9' /\ filled l10 l10' /\ filled l11 l11' /\ filled l12 l12' /\ filled k k' /\ Forall2 vertices_counted k v /\ Forall2 vertices_counted k' v'.
Proof.
  intros [a0 [a1 [a2 [a3 [a4 [a5 [a6 [a7 [a8 [a9 [a10 [a11 [a12 [a13 [a14 a15]]]]]]]]]]]]]]] [b0 [b1 [b2 [b3 [b4 [b5 [b6 [b7 [b8 [b9 [b10 [b11 [b12 [b13 [b14 b15]]]]]]]]]]]]]]].
  exact (conj (counts_same _ _ _ _ _ a0 b0) (conj (counts_same _ _ _ _ _ a1 b1) (conj (filled_same _ _ _ a2 b2) (conj (filled_same _ _ _ a3 b3) (conj (filled_same _ _ _ a4 b4) (conj (filled_same _ _ _ a5 b5) (conj (filled_same _ _ _ a6 b6) (conj (filled_same _ _ _ a7 b7) (conj (filled_same _ _ _ a8 b8) (conj (filled_same _ _ _ a9 b9) (conj (filled_same _ _ _ a10 b10) (conj (filled_same _ _ _ a11 b11) (conj (filled_same _ _ _ a12 b12) (conj (filled_same _ _ _ a13 b13) (conj (filled_same _ _ _ a14 b14) (conj a15 b15)))))))))))))))).
Qed.
Lemma on_MinefieldDataPdu m : on m 11.
Proof.
  start; [|do 2 (eapply and_list; [cdx|]); do 12 (eapply and_filled; [cdx|]); apply end_vertices].
  cbv [MinefieldDataPdu_fusing MinefieldDataPdu_ground_burial_depth_offset MinefieldDataPdu_mine_emplacement_time MinefieldDataPdu_mine_entity_id MinefieldDataPdu_mine_location MinefieldDataPdu_mine_orientation MinefieldDataPdu_number_of_mines_in_this_pdu MinefieldDataPdu_number_of_sensor_types MinefieldDataPdu_number_of_trip_wires MinefieldDataPdu_number_of_vertices MinefieldDataPdu_paint_scheme MinefieldDataPdu_reflectance MinefieldDataPdu_scalar_detection_coefficient MinefieldDataPdu_sensor_types MinefieldDataPdu_snow_burial_depth_offset MinefieldDataPdu_thermal_contrast MinefieldDataPdu_vertices MinefieldDataPdu_water_burial_depth_offset body fst snd]. cbv zeta.
  intros x v w K. exact (mines_same _ _ _ _ _ _ _ _ _ _ _ _ _ _ _ _ _ _ _ _ _ _ _ _ _ _ _ _ _ _ _ _ _ _ (proj1 K) (proj2 K)).
Qed.

(** Transmitters: [serialize] stores the length of the modulation parameters. *)
Definition tx_honest (mp : option ModulationParameters) (apl : u16) (ap : option AntennaPattern) (vt : list VariableTransmitterParameters) : Prop :=
  match mp with None => True | Some x => (1 <= length (ModulationParameters_record_specific_fields x) <= 255)%nat end /\
  match ap with
  | None => uval apl = 0
  | Some x => uval apl <> 0 /\ counts apl (AntennaPattern_record_specific_fields x)
  end /\ Forall transmitter_parameter_counted vt.
Definition tx_stored (mpl : u8) (mp : option ModulationParameters) : Prop :=
  mpl = len_byte (c_len (option_codec ModulationParameters_codec) mp).
Lemma capped_eq (a b : N) : (if a <? 256 then a else 0) = (if b <? 256 then b else 0) -> a < 256 -> b < 256 -> a = b.
Proof. intros E A B. apply N.ltb_lt in A, B. rewrite A, B in E. exact E. Qed.
Lemma small n : (1 <= n <= 255)%nat -> N.of_nat n < 256.
Proof. lia. Qed.
Lemma positive n : (1 <= n <= 255)%nat -> N.of_nat n = 0 -> False.
Proof. lia. Qed.
Lemma same_stored mpl mp mp' : tx_stored mpl mp -> tx_stored mpl mp' ->
  match mp with None => True | Some x => (1 <= length (ModulationParameters_record_specific_fields x) <= 255)%nat end ->
  match mp' with None => True | Some x => (1 <= length (ModulationParameters_record_specific_fields x) <= 255)%nat end ->
  same_modulation mp mp'.
Proof.
  intros E E' H H'. unfold tx_stored in E, E'. rewrite E in E'. apply (f_equal uval) in E'. rewrite !len_byte_val, !mod_len in E'.
  destruct mp as [[x]|], mp' as [[y]|]; cbn [mod_bytes ModulationParameters_record_specific_fields same_modulation] in *; unfold lenN, same_length in *.
  - exact (Nat2N.inj _ _ (capped_eq _ _ E' (small _ H) (small _ H'))).
  - exact (positive _ H (capped_eq _ 0 E' (small _ H) eq_refl)).
  - exact (positive _ H' (eq_sym (capped_eq 0 _ E' eq_refl (small _ H')))).
  - exact I.
Qed.
Lemma tx_same mpl apl mp mp' ap ap' vt vt' : tx_honest mp apl ap vt /\ tx_stored mpl mp -> tx_honest mp' apl ap' vt' /\ tx_stored mpl mp' ->
  same_modulation mp mp' /\ same_antenna ap ap' /\ Forall transmitter_parameter_counted vt /\ Forall transmitter_parameter_counted vt'.
Proof.
  intros [[M [A F]] L] [[M' [A' F']] L']. split; [exact (same_stored _ _ _ L L' M M')|]. split; [|split; assumption].
  destruct ap as [x|], ap' as [y|]; cbn [same_antenna].
  - exact (counts_same _ _ _ _ _ (proj2 A) (proj2 A')).
  - exact (proj1 A A').
  - exact (proj1 A' A).
  - exact I.
Qed.
Definition tx_pdu_honest (p : pdu TransmitterPdu) : Prop :=
  tx_honest (TransmitterPdu_modulation_parameters p) (TransmitterPdu_antenna_pattern_length p) (TransmitterPdu_antenna_pattern p)
    (TransmitterPdu_variable_transmitter_parameters p) /\
  tx_stored (TransmitterPdu_modulation_parameter_length p) (TransmitterPdu_modulation_parameters p).
Lemma tx_bdet h h' : bdet (cls_fields TransmitterPdu) (fun v w => tx_pdu_honest (mk_pdu h v) /\ tx_pdu_honest (mk_pdu h' w)).
Proof.
  eapply (bdet_split (cls_fields TransmitterPdu)); [unfold TransmitterPdu, cls_fields; fronts| |apply end_transmitter].
  unfold tx_pdu_honest.
  cbv [TransmitterPdu_modulation_parameters TransmitterPdu_antenna_pattern_length TransmitterPdu_antenna_pattern TransmitterPdu_variable_transmitter_parameters TransmitterPdu_modulation_parameter_length body fst snd].
  intros x v w K. exact (tx_same _ _ _ _ _ _ _ _ (proj1 K) (proj2 K)).
Qed.
Lemma tx_prep_apl (v : values (cls_fields TransmitterPdu)) h :
  TransmitterPdu_antenna_pattern_length (mk_pdu h (prep_body (cls_fields TransmitterPdu) v)) = TransmitterPdu_antenna_pattern_length (mk_pdu h v).
Proof. reflexivity. Qed.
Lemma tx_prep_ap (v : values (cls_fields TransmitterPdu)) h :
  TransmitterPdu_antenna_pattern (mk_pdu h (prep_body (cls_fields TransmitterPdu) v)) = TransmitterPdu_antenna_pattern (mk_pdu h v).
Proof. reflexivity. Qed.
Lemma tx_prep_vt (v : values (cls_fields TransmitterPdu)) h :
  TransmitterPdu_variable_transmitter_parameters (mk_pdu h (prep_body (cls_fields TransmitterPdu) v)) = TransmitterPdu_variable_transmitter_parameters (mk_pdu h v).
Proof. reflexivity. Qed.
Lemma on_TransmitterPdu m : on m 12.
Proof.
  cbv [on nth_error conditions]. match goal with |- determined_entry ?m (when ?c ?P) => assert (J : In c (all_pdus m)) by inall; split; [exact J|];
    change (datagram_determines c P); apply (class_determined m c J P) end.
  intros [h v] [h' w] Hp Hq. apply (tx_bdet h h'). 
  assert (G : forall h v, tx_honest (TransmitterPdu_modulation_parameters (mk_pdu h v)) (TransmitterPdu_antenna_pattern_length (mk_pdu h v))
      (TransmitterPdu_antenna_pattern (mk_pdu h v)) (TransmitterPdu_variable_transmitter_parameters (mk_pdu h v)) ->
      tx_pdu_honest (mk_pdu h (prep_body (cls_fields TransmitterPdu) v))).
  { clear. intros h v H. unfold tx_pdu_honest, tx_stored. rewrite (tx_prep_mpl v h h), (tx_prep_mp v h h), tx_prep_apl, tx_prep_ap, tx_prep_vt.
    split; [exact H | reflexivity]. }
  split; apply G; assumption.
Qed.

(** Every class in the table is determined by its datagrams under the condition of the table. *)
Theorem C56_conditional : forall m k, In k (conditions m) ->
  In (projT1 k) (all_pdus m) /\ datagram_determines (projT1 k) (projT2 k).
Proof.
  intros m k K. apply In_nth_error in K as [i E]. assert (H : on m i).
  { destruct i as [|i]; [exact (on_ElectromagneticEmissionsPdu m)|].
    destruct i as [|i]; [exact (on_UnderwaterAcousticPdu m)|].
    destruct i as [|i]; [exact (on_SupplementalEmissionPdu m)|].
    destruct i as [|i]; [exact (on_EntityStatePdu m)|].
    destruct i as [|i]; [exact (on_AttributePdu m)|].
    destruct i as [|i]; [exact (on_AggregateStatePdu m)|].
    destruct i as [|i]; [exact (on_TransferOwnershipPdu m)|].
    destruct i as [|i]; [exact (on_InformationOperationsActionPdu m)|].
    destruct i as [|i]; [exact (on_InformationOperationsReportPdu m)|].
    destruct i as [|i]; [exact (on_MinefieldStatePdu m)|].
    destruct i as [|i]; [exact (on_MinefieldQueryPdu m)|].
    destruct i as [|i]; [exact (on_MinefieldDataPdu m)|].
    destruct i as [|i]; [exact (on_TransmitterPdu m)|].
    destruct i as [|i]; [exact (on_ActionRequestPdu m)|].
    destruct i as [|i]; [exact (on_ActionResponsePdu m)|].
    destruct i as [|i]; [exact (on_DataQueryPdu m)|].
    destruct i as [|i]; [exact (on_SetDataPdu m)|].
    destruct i as [|i]; [exact (on_DataPdu m)|].
    destruct i as [|i]; [exact (on_EventReportPdu m)|].
    destruct i as [|i]; [exact (on_CommentPdu m)|].
    destruct i as [|i]; [exact (on_ActionRequestReliablePdu m)|].
    destruct i as [|i]; [exact (on_ActionResponseReliablePdu m)|].
    destruct i as [|i]; [exact (on_DataQueryReliablePdu m)|].
    destruct i as [|i]; [exact (on_SetDataReliablePdu m)|].
    destruct i as [|i]; [exact (on_DataReliablePdu m)|].
    destruct i as [|i]; [exact (on_EventReportReliablePdu m)|].
    destruct i as [|i]; [exact (on_CommentReliablePdu m)|].
    destruct i as [|i]; [exact (on_SetRecordReliablePdu m)|].
    destruct i as [|i]; [exact (on_GriddedDataPdu m)|].
    exfalso. cbn [nth_error conditions] in E. now destruct i. }
  unfold on in H. rewrite E in H. exact H.
Qed.

(** ** The conditions are needed *)
(** Replace field number [i] of the default PDU. *)
Fixpoint set_nth (fs : list field) (i : nat) : match nth_error fs i with Some f => f_type f | None => unit end -> values fs -> values fs :=
  match fs, i return match nth_error fs i with Some f => f_type f | None => unit end -> values fs -> values fs with
  | [], _ => fun _ v => v
  | f :: fs', O => fun x v => (x, snd v)
  | f :: fs', S i' => fun x v => (fst v, set_nth fs' i' x (snd v))
  end.
Definition with_field (c : pdu_class) (i : nat) (x : match nth_error (cls_fields c) i with Some f => f_type f | None => unit end) : pdu c :=
  mk_pdu (PduHeader_default (as_u32 0)) (set_nth (cls_fields c) i x (body_default (cls_fields c))).
Definition zero_element (v : list u8) : RecordSpecificationElement := mk_RecordSpecificationElement (as_u32 0) (as_u32 0) (as_u16 0) (as_u16 0) v.
Fixpoint same_numbers (l l' : list N) : bool :=
  match l, l' with [], [] => true | x :: l, y :: l' => (x =? y) && same_numbers l l' | _, _ => false end.
Lemma same_numbers_eq l l' : same_numbers l l' = true -> l = l'.
Proof.
  revert l'. induction l as [|x l IH]; intros [|y l']; cbn [same_numbers]; try discriminate; [reflexivity|].
  intros H. apply andb_prop in H as [E H]. apply N.eqb_eq in E. subst y. f_equal. apply IH, H.
Qed.
Lemma collide c (p q : pdu c) (f : pdu c -> N) :
  match serialize c p [], serialize c q [] with
  | Ok (ROk tt, p', b), Ok (ROk tt, q', b') => same_numbers (map uval b) (map uval b') && negb (f p' =? f q')
  | _, _ => false
  end = true -> ~ datagram_determines c (fun _ => True).
Proof.
  intros H D. destruct (serialize c p []) as [[[[[]|?] p'] b]|?] eqn:P; try discriminate H.
  destruct (serialize c q []) as [[[[[]|?] q'] b']|?] eqn:Q; try discriminate H.
  apply andb_prop in H as [B F]. apply same_numbers_eq in B. assert (b = b').
  { clear - B. revert b' B. induction b as [|x b IH]; intros [|y b']; cbn [map]; try discriminate; [reflexivity|].
    intros E. injection E as E E'. f_equal; [apply uint_eq, E | apply IH, E']. }
  subst b'. rewrite (D p q p' q' [] [] b I I P Q), N.eqb_refl in F. discriminate F.
Qed.
Definition off (m : profile) (i : nat) : Prop :=
  match nth_error (conditions m) i with Some k => ~ datagram_determines (projT1 k) (fun _ => True) | None => False end.
Lemma off_ElectromagneticEmissionsPdu m : off m 0.
Proof.
  cbv [off nth_error conditions]. apply (collide _ (with_field ElectromagneticEmissionsPdu 5 [mk_ElectromagneticEmissionSystemData (as_u8 0) (as_u8 0) (as_u16 0) EmitterSystem_default Vector3Float_default (repeat ElectromagneticEmissionBeamData_default 3)])
    (with_field ElectromagneticEmissionsPdu 5 [mk_ElectromagneticEmissionSystemData (as_u8 0) (as_u8 0) (as_u16 0) EmitterSystem_default Vector3Float_default [mk_ElectromagneticEmissionBeamData (as_u8 0) (as_u8 0) (as_u16 0) FundamentalParameterData_default (as_u8 0) (as_u8 0) (as_u8 0) (as_u8 0) (as_u32 0) (repeat (mk_TrackJamTarget (mk_EntityId (mk_SimulationAddress (as_u16 0) (as_u16 0)) (as_u16 0)) (as_u8 0) (as_u8 0)) 13)]]) (fun p => match ElectromagneticEmissionsPdu_systems p with x :: _ => lenN (ElectromagneticEmissionSystemData_beam_data_records x) | [] => 0 end)); destruct m; vm_compute; reflexivity.
Qed.
Lemma off_UnderwaterAcousticPdu m : off m 1.
Proof.
  cbv [off nth_error conditions]. apply (collide _ (with_field UnderwaterAcousticPdu 9 [ShaftRPMs_default])
    (with_field UnderwaterAcousticPdu 10 [ApaData_default; ApaData_default]) (fun p => lenN (UnderwaterAcousticPdu_shaft_rpms p))); destruct m; vm_compute; reflexivity.
Qed.
Lemma off_SupplementalEmissionPdu m : off m 2.
Proof.
  cbv [off nth_error conditions]. apply (collide _ (with_field SupplementalEmissionPdu 6 [PropulsionSystemData_default])
    (with_field SupplementalEmissionPdu 7 [VectoringNozzleSystemData_default]) (fun p => lenN (SupplementalEmissionPdu_propulsion_system_data p))); destruct m; vm_compute; reflexivity.
Qed.
Lemma off_EntityStatePdu m : off m 3.
Proof.
  cbv [off nth_error conditions]. apply (collide _ (with_field EntityStatePdu 9 DeadReckoningParameters_default)
    (with_field EntityStatePdu 9 (mk_DeadReckoningParameters (enum_default _) (array_repeat (as_u8 7) 15) LinearAcceleration_default AngularVelocity_default)) (fun p => fold_right N.add 0 (map uval (elems (DeadReckoningParameters_dead_reckoning_other_parameters (EntityStatePdu_dead_reckoning_parameters p)))))); destruct m; vm_compute; reflexivity.
Qed.
Lemma off_AttributePdu m : off m 4.
Proof.
  cbv [off nth_error conditions]. apply (collide _ (with_field AttributePdu 9 [mk_AttributeRecordSet (mk_EntityId (mk_SimulationAddress (as_u16 0) (as_u16 0)) (as_u16 0)) (as_u16 0) []; mk_AttributeRecordSet (mk_EntityId (mk_SimulationAddress (as_u16 0) (as_u16 0)) (as_u16 0)) (as_u16 0) []])
    (with_field AttributePdu 9 [mk_AttributeRecordSet (mk_EntityId (mk_SimulationAddress (as_u16 0) (as_u16 0)) (as_u16 0)) (as_u16 0) [mk_AttributeRecord (as_u32 0) (as_u16 0) [as_u8 0; as_u8 0]]]) (fun p => lenN (AttributePdu_attribute_record_sets p))); destruct m; vm_compute; reflexivity.
Qed.
Lemma off_AggregateStatePdu m : off m 5.
Proof.
  cbv [off nth_error conditions]. apply (collide _ (with_field AggregateStatePdu 16 (repeat (as_u8 0) 8))
    (with_field AggregateStatePdu 17 [EntityType_default]) (fun p => lenN (AggregateStatePdu_padding p))); destruct m; vm_compute; reflexivity.
Qed.
Lemma off_TransferOwnershipPdu m : off m 6.
Proof.
  cbv [off nth_error conditions]. apply (collide _ (with_field (TransferOwnershipPdu m) 1 SimulationIdentifier_default)
    (with_field (TransferOwnershipPdu m) 1 (mk_SimulationIdentifier SimulationAddress_default (as_u16 5))) (fun p => uval (SimulationIdentifier_reference_number (TransferOwnershipPdu_receiving_id p)))); destruct m; vm_compute; reflexivity.
Qed.
Lemma off_InformationOperationsActionPdu m : off m 7.
Proof.
  cbv [off nth_error conditions]. apply (collide _ (with_field InformationOperationsActionPdu 1 SimulationIdentifier_default)
    (with_field InformationOperationsActionPdu 1 (mk_SimulationIdentifier SimulationAddress_default (as_u16 5))) (fun p => uval (SimulationIdentifier_reference_number (InformationOperationsActionPdu_receiving_simulation_id p)))); destruct m; vm_compute; reflexivity.
Qed.
Lemma off_InformationOperationsReportPdu m : off m 8.
Proof.
  cbv [off nth_error conditions]. apply (collide _ (with_field InformationOperationsReportPdu 0 SimulationIdentifier_default)
    (with_field InformationOperationsReportPdu 0 (mk_SimulationIdentifier SimulationAddress_default (as_u16 5))) (fun p => uval (SimulationIdentifier_reference_number (InformationOperationsReportPdu_originating_simulation_id p)))); destruct m; vm_compute; reflexivity.
Qed.
Lemma off_MinefieldStatePdu m : off m 9.
Proof.
  cbv [off nth_error conditions]. apply (collide _ (with_field MinefieldStatePdu 10 [Point_default])
    (with_field MinefieldStatePdu 11 [EntityType_default]) (fun p => lenN (MinefieldStatePdu_perimeter_points p))); destruct m; vm_compute; reflexivity.
Qed.
Lemma off_MinefieldQueryPdu m : off m 10.
Proof.
  cbv [off nth_error conditions]. apply (collide _ (with_field MinefieldQueryPdu 8 [Point_default])
    (with_field MinefieldQueryPdu 9 (repeat (enum_default MinefieldSensorTypes_spec) 8)) (fun p => lenN (MinefieldQueryPdu_requested_perimeter_points p))); destruct m; vm_compute; reflexivity.
Qed.
Lemma off_MinefieldDataPdu m : off m 11.
Proof.
  cbv [off nth_error conditions]. apply (collide _ (with_field MinefieldDataPdu 13 [None; Some (as_uint 4 1)])
    (with_field MinefieldDataPdu 13 [Some (as_uint 4 1); None]) (fun p => match MinefieldDataPdu_ground_burial_depth_offset p with None :: _ => 0 | _ => 1 end)); destruct m; vm_compute; reflexivity.
Qed.
Lemma off_TransmitterPdu m : off m 12.
Proof.
  cbv [off nth_error conditions]. apply (collide _ (with_field TransmitterPdu 19 None)
    (with_field TransmitterPdu 19 (Some (mk_ModulationParameters []))) (fun p => match TransmitterPdu_modulation_parameters p with None => 0 | _ => 1 end)); destruct m; vm_compute; reflexivity.
Qed.
Lemma off_ActionRequestPdu m : off m 13.
Proof.
  cbv [off nth_error conditions]. apply (collide _ (with_field ActionRequestPdu 6 [mk_FixedDatumRecord (as_u32 0) (as_u32 0)])
    (with_field ActionRequestPdu 7 [mk_VariableDatumRecord (as_u32 0) (as_u32 0) []]) (fun p => lenN (ActionRequestPdu_fixed_datum_records p))); destruct m; vm_compute; reflexivity.
Qed.
Lemma off_ActionResponsePdu m : off m 14.
Proof.
  cbv [off nth_error conditions]. apply (collide _ (with_field ActionResponsePdu 6 [mk_FixedDatumRecord (as_u32 0) (as_u32 0)])
    (with_field ActionResponsePdu 7 [mk_VariableDatumRecord (as_u32 0) (as_u32 0) []]) (fun p => lenN (ActionResponsePdu_fixed_datum_records p))); destruct m; vm_compute; reflexivity.
Qed.
Lemma off_DataQueryPdu m : off m 15.
Proof.
  cbv [off nth_error conditions]. apply (collide _ (with_field DataQueryPdu 6 [mk_FixedDatumRecord (as_u32 0) (as_u32 0)])
    (with_field DataQueryPdu 7 [mk_VariableDatumRecord (as_u32 0) (as_u32 0) []]) (fun p => lenN (DataQueryPdu_fixed_datum_records p))); destruct m; vm_compute; reflexivity.
Qed.
Lemma off_SetDataPdu m : off m 16.
Proof.
  cbv [off nth_error conditions]. apply (collide _ (with_field SetDataPdu 6 [mk_FixedDatumRecord (as_u32 0) (as_u32 0)])
    (with_field SetDataPdu 7 [mk_VariableDatumRecord (as_u32 0) (as_u32 0) []]) (fun p => lenN (SetDataPdu_fixed_datum_records p))); destruct m; vm_compute; reflexivity.
Qed.
Lemma off_DataPdu m : off m 17.
Proof.
  cbv [off nth_error conditions]. apply (collide _ (with_field DataPdu 6 [mk_FixedDatumRecord (as_u32 0) (as_u32 0)])
    (with_field DataPdu 7 [mk_VariableDatumRecord (as_u32 0) (as_u32 0) []]) (fun p => lenN (DataPdu_fixed_datum_records p))); destruct m; vm_compute; reflexivity.
Qed.
Lemma off_EventReportPdu m : off m 18.
Proof.
  cbv [off nth_error conditions]. apply (collide _ (with_field EventReportPdu 6 [mk_FixedDatumRecord (as_u32 0) (as_u32 0)])
    (with_field EventReportPdu 7 [mk_VariableDatumRecord (as_u32 0) (as_u32 0) []]) (fun p => lenN (EventReportPdu_fixed_datum_records p))); destruct m; vm_compute; reflexivity.
Qed.
Lemma off_CommentPdu m : off m 19.
Proof.
  cbv [off nth_error conditions]. apply (collide _ (with_field CommentPdu 4 [mk_FixedDatumRecord (as_u32 0) (as_u32 0)])
    (with_field CommentPdu 5 [mk_VariableDatumRecord (as_u32 0) (as_u32 0) []]) (fun p => lenN (CommentPdu_fixed_datum_records p))); destruct m; vm_compute; reflexivity.
Qed.
Lemma off_ActionRequestReliablePdu m : off m 20.
Proof.
  cbv [off nth_error conditions]. apply (collide _ (with_field ActionRequestReliablePdu 10 [mk_FixedDatumRecord (as_u32 0) (as_u32 0)])
    (with_field ActionRequestReliablePdu 11 [mk_VariableDatumRecord (as_u32 0) (as_u32 0) []]) (fun p => lenN (ActionRequestReliablePdu_fixed_datum_records p))); destruct m; vm_compute; reflexivity.
Qed.
Lemma off_ActionResponseReliablePdu m : off m 21.
Proof.
  cbv [off nth_error conditions]. apply (collide _ (with_field ActionResponseReliablePdu 6 [mk_FixedDatumRecord (as_u32 0) (as_u32 0)])
    (with_field ActionResponseReliablePdu 7 [mk_VariableDatumRecord (as_u32 0) (as_u32 0) []]) (fun p => lenN (ActionResponseReliablePdu_fixed_datum_records p))); destruct m; vm_compute; reflexivity.
Qed.
Lemma off_DataQueryReliablePdu m : off m 22.
Proof.
  cbv [off nth_error conditions]. apply (collide _ (with_field DataQueryReliablePdu 9 [enum_default VariableRecordTypes_spec])
    (with_field DataQueryReliablePdu 10 [enum_default VariableRecordTypes_spec]) (fun p => lenN (DataQueryReliablePdu_fixed_datum_ids p))); destruct m; vm_compute; reflexivity.
Qed.
Lemma off_SetDataReliablePdu m : off m 23.
Proof.
  cbv [off nth_error conditions]. apply (collide _ (with_field SetDataReliablePdu 8 [mk_FixedDatumRecord (as_u32 0) (as_u32 0)])
    (with_field SetDataReliablePdu 9 [mk_VariableDatumRecord (as_u32 0) (as_u32 0) []]) (fun p => lenN (SetDataReliablePdu_fixed_datum_records p))); destruct m; vm_compute; reflexivity.
Qed.
Lemma off_DataReliablePdu m : off m 24.
Proof.
  cbv [off nth_error conditions]. apply (collide _ (with_field DataReliablePdu 8 [mk_FixedDatumRecord (as_u32 0) (as_u32 0)])
    (with_field DataReliablePdu 9 [mk_VariableDatumRecord (as_u32 0) (as_u32 0) []]) (fun p => lenN (DataReliablePdu_fixed_datum_records p))); destruct m; vm_compute; reflexivity.
Qed.
Lemma off_EventReportReliablePdu m : off m 25.
Proof.
  cbv [off nth_error conditions]. apply (collide _ (with_field EventReportReliablePdu 6 [mk_FixedDatumRecord (as_u32 0) (as_u32 0)])
    (with_field EventReportReliablePdu 7 [mk_VariableDatumRecord (as_u32 0) (as_u32 0) []]) (fun p => lenN (EventReportReliablePdu_fixed_datum_records p))); destruct m; vm_compute; reflexivity.
Qed.
Lemma off_CommentReliablePdu m : off m 26.
Proof.
  cbv [off nth_error conditions]. apply (collide _ (with_field CommentReliablePdu 4 [mk_FixedDatumRecord (as_u32 0) (as_u32 0)])
    (with_field CommentReliablePdu 5 [mk_VariableDatumRecord (as_u32 0) (as_u32 0) []]) (fun p => lenN (CommentReliablePdu_fixed_datum_records p))); destruct m; vm_compute; reflexivity.
Qed.
Lemma off_SetRecordReliablePdu m : off m 27.
Proof.
  cbv [off nth_error conditions].
  apply (collide _ (with_field (SetRecordReliablePdu m) 7 (mk_RecordSpecification (as_u32 1) [zero_element [as_u8 1]]))
    (with_field (SetRecordReliablePdu m) 7 (mk_RecordSpecification (as_u32 1) [zero_element [as_u8 2]]))
    (fun p => match RecordSpecification_record_sets (SetRecordReliablePdu_record_sets p) with x :: _ => fold_right N.add 0 (map uval (RecordSpecificationElement_record_values x)) | [] => 0 end)); destruct m; vm_compute; reflexivity.
Qed.
Lemma off_GriddedDataPdu m : off m 28.
Proof.
  cbv [off nth_error conditions].
  apply (collide _ (with_field GriddedDataPdu 15 [mk_GridDataRecord (enum_default _) (enum_default _) (Type0 (as_u16 0) [as_u8 9; as_u8 9] [])])
    (with_field GriddedDataPdu 15 [mk_GridDataRecord (enum_default _) (enum_default _) (Type0 (as_u16 0) [] [as_u8 9; as_u8 9])])
    (fun p => match GriddedDataPdu_grid_data_list p with mk_GridDataRecord _ _ (Type0 _ d _) :: _ => lenN d | _ => 9 end)); destruct m; vm_compute; reflexivity.
Qed.
(** Without its condition no class of the table is determined: two different PDUs share a
    datagram. *)
Theorem C56_conditions_needed : forall m k, In k (conditions m) -> ~ datagram_determines (projT1 k) (fun _ => True).
Proof.
  intros m k K. apply In_nth_error in K as [i E]. assert (H : off m i).
  { destruct i as [|i]; [exact (off_ElectromagneticEmissionsPdu m)|].
    destruct i as [|i]; [exact (off_UnderwaterAcousticPdu m)|].
    destruct i as [|i]; [exact (off_SupplementalEmissionPdu m)|].
    destruct i as [|i]; [exact (off_EntityStatePdu m)|].
    destruct i as [|i]; [exact (off_AttributePdu m)|].
    destruct i as [|i]; [exact (off_AggregateStatePdu m)|].
    destruct i as [|i]; [exact (off_TransferOwnershipPdu m)|].
    destruct i as [|i]; [exact (off_InformationOperationsActionPdu m)|].
    destruct i as [|i]; [exact (off_InformationOperationsReportPdu m)|].
    destruct i as [|i]; [exact (off_MinefieldStatePdu m)|].
    destruct i as [|i]; [exact (off_MinefieldQueryPdu m)|].
    destruct i as [|i]; [exact (off_MinefieldDataPdu m)|].
    destruct i as [|i]; [exact (off_TransmitterPdu m)|].
    destruct i as [|i]; [exact (off_ActionRequestPdu m)|].
    destruct i as [|i]; [exact (off_ActionResponsePdu m)|].
    destruct i as [|i]; [exact (off_DataQueryPdu m)|].
    destruct i as [|i]; [exact (off_SetDataPdu m)|].
    destruct i as [|i]; [exact (off_DataPdu m)|].
    destruct i as [|i]; [exact (off_EventReportPdu m)|].
    destruct i as [|i]; [exact (off_CommentPdu m)|].
    destruct i as [|i]; [exact (off_ActionRequestReliablePdu m)|].
    destruct i as [|i]; [exact (off_ActionResponseReliablePdu m)|].
    destruct i as [|i]; [exact (off_DataQueryReliablePdu m)|].
    destruct i as [|i]; [exact (off_SetDataReliablePdu m)|].
    destruct i as [|i]; [exact (off_DataReliablePdu m)|].
    destruct i as [|i]; [exact (off_EventReportReliablePdu m)|].
    destruct i as [|i]; [exact (off_CommentReliablePdu m)|].
    destruct i as [|i]; [exact (off_SetRecordReliablePdu m)|].
    destruct i as [|i]; [exact (off_GriddedDataPdu m)|].
    exfalso. cbn [nth_error conditions] in E. now destruct i. }
  unfold off in H. rewrite E in H. exact H.
Qed.

(** A PDU meeting the condition of its class: one counted fixed datum and an exact variable
    datum. Its datagram starts with the header and holds both datums. *)
Definition honest_request : pdu ActionRequestPdu :=
  mk_pdu (PduHeader_default (as_u32 0))
    (set_nth (cls_fields ActionRequestPdu) 4 (as_u32 1) (set_nth (cls_fields ActionRequestPdu) 6 [mk_FixedDatumRecord (as_u32 3) (as_u32 4)]
      (body (with_field ActionRequestPdu 7 [mk_VariableDatumRecord (as_u32 5) (as_u32 12) [as_u8 6; as_u8 7]])))).
Example C56_example :
  (counts (ActionRequestPdu_number_of_fixed_datum_records honest_request) (ActionRequestPdu_fixed_datum_records honest_request) /\
   Forall datum_exact (ActionRequestPdu_variable_datum_records honest_request)) /\
  match serialize ActionRequestPdu honest_request [] with
  | Ok (ROk tt, _, b) => map uval (skipn 40 b) = [0; 0; 0; 3; 0; 0; 0; 4; 0; 0; 0; 5; 0; 0; 0; 12; 6; 7; 0; 0; 0; 0; 0; 0]
  | _ => False
  end.
Proof.
  split; [split; [vm_compute; reflexivity | repeat constructor]|].
  assert (E : match serialize ActionRequestPdu honest_request [] with Ok (ROk tt, _, b) => Some (map uval (skipn 40 b)) | _ => None end =
    Some [0; 0; 0; 3; 0; 0; 0; 4; 0; 0; 0; 5; 0; 0; 0; 12; 6; 7; 0; 0; 0; 0; 0; 0]) by (vm_compute; reflexivity).
  destruct (serialize ActionRequestPdu honest_request []) as [[[[[]|?] p'] b]|?]; try discriminate E. injection E as E. exact E.
Qed.
(** Which classes need no condition. *)
Example C56_how_many : forall m, length (filter (fun c => negb (mem_string (cls_name c) conditional_pdus)) (all_pdus m)) = 37%nat /\
  length (all_pdus m) = 66%nat.
Proof. intros []; split; vm_compute; reflexivity. Qed.

(** What the theorems above rest on (one traversal for all of them; not part of the model). *)
Definition Prop_Inform_theorems : True :=
  let _ := @C56_unconditional in
  let _ := @C56_conditional in
  let _ := @C56_conditions_needed in
  I.
Print Assumptions Prop_Inform_theorems.
