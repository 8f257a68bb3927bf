(** * C65, continued: what decoding returns for the classes that end with sized records. *)
From Verif Require Import Base BaseFacts EnumModel Enums EnumFacts Header HeaderProofs PduMacro DataTypes Bitflags Pdus PduFields
  Spec SpecDatum SpecSpecial ClassFacts PduProofs Wire WireMaps WireProofs WireClass SpecFaults Prop_Faults SpecLayout TailFacts LayoutFacts RecLayoutFacts
  RecordFacts DatumFacts Prop_Relay
  SpecialFacts SpecialOthers Prop_Special Prop_Transmitter Prop_Aggregate Prop_Specs Prop_Needed DecodeFacts DecodeSpecial DecodeTail SpecDecode.

(** ** Classes ending with a counted list of sized records

    The list is what follows the fixed part, byte for byte ([pl_tail], [element_sent] in
    [SpecLayout]), with as many records, and as many bytes in each, as their counts say
    ([specification_exact] in [SpecDatum], [counted_StandardVariableSpecification] in [Spec]). *)
Lemma last_received {T} bs (v : T) l off w name f : Forall (received bs v) l -> In (num off w name f) l -> f v = number (firstn w (skipn off bs)).
Proof. rewrite Forall_forall. intros F I. exact (F _ I). Qed.
Lemma skipn_add a b (bs : bytes) : skipn a (skipn b bs) = skipn (b + a) bs.
Proof. revert bs. induction b as [|b IH]; intros bs; [reflexivity|]. destruct bs as [|x bs]; [now rewrite !skipn_nil|]. apply IH. Qed.

Theorem C65_transfer_ownership : forall m bs (p : pdu (TransferOwnershipPdu m)) rest,
  deserialize (TransferOwnershipPdu m) bs = Ok (ROk p, rest) <->
  wire_type bs = 35 /\ (40 <= length bs)%nat /\
  Forall (received bs p) (header_entries ++ TransferOwnershipPdu_map m) /\
  skipn 40 bs = each element_sent (RecordSpecification_record_sets (TransferOwnershipPdu_record_information p)) ++ rest /\
  specification_exact m (TransferOwnershipPdu_record_information p).
Proof.
  intros m bs p rest. destruct (to_prefix m) as [tl [rb [nm [ev [P [Hrb [Htl _]]]]]]].
  pose (l := mk_pdu_layout (TransferOwnershipPdu m) (TransferOwnershipPdu_map m) 40 TransferOwnershipPdu_tail).
  assert (I : In l (layouts m)) by (apply (nth_error_In _ 12); reflexivity).
  assert (G : forall h v w, TransferOwnershipPdu_record_information (mk_pdu (c := TransferOwnershipPdu m) h (rb v w)) = fst w).
  { intros h v w. assert (Y := Hrb v w). rewrite Htl in Y. exact (f_equal fst Y). }
  assert (K := tail_decode m l (plain "record_information" (RecordSpecification_codec m) RecordSpecification_default) _ _ _ _ _ _
    TransferOwnershipPdu_record_information I P eq_refl G (to_agree m) bs p rest).
  cbn [pl_class pl_map l f_codec plain c_des RecordSpecification_codec] in K. change (12 + 24)%nat with 36%nat in K. rewrite K, specification_iff, skipn_add, skipn_length.
  change (36 + 4)%nat with 40%nat. change (code (cls_type (TransferOwnershipPdu m))) with 35. split.
  - intros (T & F & _ & L & _ & S & X). split; [exact T|]. split; [lia | auto].
  - intros (T & L & F & S & X). split; [exact T|]. split; [exact F|]. split; [lia|]. split; [lia|]. split; [|auto].
    refine (last_received bs p _ 36 4 "record_information.number_of_record_sets"%string (fun v => uval (RecordSpecification_number_of_record_sets (TransferOwnershipPdu_record_information v))) F _). apply in_or_app; right. unfold TransferOwnershipPdu_map. cbn [In]. tauto.
Qed.
Theorem C65_set_record : forall m bs (p : pdu (SetRecordReliablePdu m)) rest,
  deserialize (SetRecordReliablePdu m) bs = Ok (ROk p, rest) <->
  wire_type bs = 64 /\ (40 <= length bs)%nat /\
  Forall (received bs p) (header_entries ++ SetRecordReliablePdu_map m) /\
  skipn 40 bs = each element_sent (RecordSpecification_record_sets (SetRecordReliablePdu_record_sets p)) ++ rest /\
  specification_exact m (SetRecordReliablePdu_record_sets p).
Proof.
  intros m bs p rest. destruct (sr_prefix m) as [tl [rb [nm [ev [P [Hrb Htl]]]]]].
  pose (l := mk_pdu_layout (SetRecordReliablePdu m) (SetRecordReliablePdu_map m) 40 SetRecordReliablePdu_tail).
  assert (I : In l (layouts m)) by (apply (nth_error_In _ 56); reflexivity).
  assert (G : forall h v w, SetRecordReliablePdu_record_sets (mk_pdu (c := SetRecordReliablePdu m) h (rb v w)) = fst w).
  { intros h v w. assert (Y := Hrb v w). rewrite Htl in Y. exact (f_equal fst Y). }
  assert (K := tail_decode m l (plain "record_sets" (RecordSpecification_codec m) RecordSpecification_default) _ _ _ _ _ _
    SetRecordReliablePdu_record_sets I P eq_refl G (sr_agree m) bs p rest).
  cbn [pl_class pl_map l f_codec plain c_des RecordSpecification_codec] in K. change (12 + 24)%nat with 36%nat in K. rewrite K, specification_iff, skipn_add, skipn_length.
  change (36 + 4)%nat with 40%nat. change (code (cls_type (SetRecordReliablePdu m))) with 64. split.
  - intros (T & F & _ & L & _ & S & X). split; [exact T|]. split; [lia | auto].
  - intros (T & L & F & S & X). split; [exact T|]. split; [exact F|]. split; [lia|]. split; [lia|]. split; [|auto].
    refine (last_received bs p _ 36 4 "record_sets.number_of_record_sets"%string (fun v => uval (RecordSpecification_number_of_record_sets (SetRecordReliablePdu_record_sets v))) F _). apply in_or_app; right. unfold SetRecordReliablePdu_map. cbn [In]. tauto.
Qed.
Theorem C65_information_action : forall bs p rest,
  deserialize InformationOperationsActionPdu bs = Ok (ROk p, rest) <->
  wire_type bs = 70 /\ (56 <= length bs)%nat /\
  Forall (received bs p) (header_entries ++ InformationOperationsActionPdu_map) /\
  skipn 56 bs = each StandardVariableRecords_serialize
                  (StandardVariableSpecification_standard_variable_records (InformationOperationsActionPdu_io_records p)) ++ rest /\
  counted_StandardVariableSpecification (InformationOperationsActionPdu_io_records p).
Proof.
  intros bs p rest. destruct ia_prefix as [tl [rb [nm [ev [P [Hrb [Htl _]]]]]]].
  pose (l := mk_pdu_layout InformationOperationsActionPdu InformationOperationsActionPdu_map 56 InformationOperationsActionPdu_tail).
  assert (I : In l (layouts Checked)) by (apply (nth_error_In _ 15); reflexivity).
  assert (G : forall h v w, InformationOperationsActionPdu_io_records (mk_pdu (c := InformationOperationsActionPdu) h (rb v w)) = fst w).
  { intros h v w. assert (Y := Hrb v w). rewrite Htl in Y. exact (f_equal fst Y). }
  assert (K := tail_decode Checked l (plain "io_records" StandardVariableSpecification_codec StandardVariableSpecification_default) _ _ _ _ _ _
    InformationOperationsActionPdu_io_records I P eq_refl G ia_agree bs p rest).
  cbn [pl_class pl_map l f_codec plain c_des StandardVariableSpecification_codec] in K. change (12 + 42)%nat with 54%nat in K. rewrite K, variable_specification_iff, skipn_add, skipn_length.
  change (54 + 2)%nat with 56%nat. change (code (cls_type InformationOperationsActionPdu)) with 70. split.
  - intros (T & F & _ & L & _ & S & X). split; [exact T|]. split; [lia | auto].
  - intros (T & L & F & S & X). split; [exact T|]. split; [exact F|]. split; [lia|]. split; [lia|]. split; [|auto].
    refine (last_received bs p _ 54 2 "io_records.number_of_standard_variable_records"%string (fun v => uval (StandardVariableSpecification_number_of_standard_variable_records (InformationOperationsActionPdu_io_records v))) F _). apply in_or_app; right. unfold InformationOperationsActionPdu_map. cbn [In]. tauto.
Qed.
Theorem C65_information_report : forall bs p rest,
  deserialize InformationOperationsReportPdu bs = Ok (ROk p, rest) <->
  wire_type bs = 71 /\ (40 <= length bs)%nat /\
  Forall (received bs p) (header_entries ++ InformationOperationsReportPdu_map) /\
  skipn 40 bs = each StandardVariableRecords_serialize
                  (StandardVariableSpecification_standard_variable_records (InformationOperationsReportPdu_io_records p)) ++ rest /\
  counted_StandardVariableSpecification (InformationOperationsReportPdu_io_records p).
Proof.
  intros bs p rest. destruct ir_prefix as [tl [rb [nm [ev [P [Hrb [Htl _]]]]]]].
  pose (l := mk_pdu_layout InformationOperationsReportPdu InformationOperationsReportPdu_map 40 InformationOperationsReportPdu_tail).
  assert (I : In l (layouts Checked)) by (apply (nth_error_In _ 14); reflexivity).
  assert (G : forall h v w, InformationOperationsReportPdu_io_records (mk_pdu (c := InformationOperationsReportPdu) h (rb v w)) = fst w).
  { intros h v w. assert (Y := Hrb v w). rewrite Htl in Y. exact (f_equal fst Y). }
  assert (K := tail_decode Checked l (plain "io_records" StandardVariableSpecification_codec StandardVariableSpecification_default) _ _ _ _ _ _
    InformationOperationsReportPdu_io_records I P eq_refl G ir_agree bs p rest).
  cbn [pl_class pl_map l f_codec plain c_des StandardVariableSpecification_codec] in K. change (12 + 26)%nat with 38%nat in K. rewrite K, variable_specification_iff, skipn_add, skipn_length.
  change (38 + 2)%nat with 40%nat. change (code (cls_type InformationOperationsReportPdu)) with 71. split.
  - intros (T & F & _ & L & _ & S & X). split; [exact T|]. split; [lia | auto].
  - intros (T & L & F & S & X). split; [exact T|]. split; [exact F|]. split; [lia|]. split; [lia|]. split; [|auto].
    refine (last_received bs p _ 38 2 "io_records.number_of_standard_variable_records"%string (fun v => uval (StandardVariableSpecification_number_of_standard_variable_records (InformationOperationsReportPdu_io_records v))) F _). apply in_or_app; right. unfold InformationOperationsReportPdu_map. cbn [In]. tauto.
Qed.

(** What the theorems above rest on (one traversal for all of them; not part of the model). *)
Definition Prop_DecodeSized_theorems : True :=
  let _ := @C65_transfer_ownership in
  let _ := @C65_set_record in
  let _ := @C65_information_action in
  let _ := @C65_information_report in
  I.
Print Assumptions Prop_DecodeSized_theorems.
