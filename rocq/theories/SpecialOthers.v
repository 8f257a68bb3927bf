(** * Prefixes of the classes holding specifications or flags (proofs only). *)
From Verif Require Import Base BaseFacts EnumModel Enums EnumFacts Fixed Header HeaderFacts PduMacro PduMacroFacts
  DataTypes DataTypesFacts Bitflags BitflagsFacts Pdus PduFields Spec Wire RecordFacts PdusFacts ClassFacts PduProofs
  SpecDatum DatumFacts SpecSpecial SpecialFacts.

Definition to_names : list string := ["originating_id"; "receiving_id"]%string.
Lemma to_prefix m : exists tl rb nm ev, prefix to_names (cls_fields (TransferOwnershipPdu m)) [plain "record_information" (RecordSpecification_codec m) RecordSpecification_default] 24 tl rb nm ev /\
  (forall v w, tl (rb v w) = w) /\ (forall v, tl v = snd (snd (snd (snd (snd (snd v)))))) /\
  (forall v w, fst (rb (nm v) w) = drop_reference (fst v) /\ fst (snd (rb (nm v) w)) = drop_reference (fst (snd v))).
Proof.
  do 4 eexists. split; [unfold TransferOwnershipPdu; cbn [cls_fields]; change 24%nat with (6 + (6 + (4 + (1 + (1 + (6 + 0))))))%nat; px|].
  cbv beta. split; [reflexivity|]. split; [reflexivity|]. intros v w; split; reflexivity.
Qed.
Definition sr_names : list string := [].
Lemma sr_prefix m : exists tl rb nm ev, prefix sr_names (cls_fields (SetRecordReliablePdu m)) [plain "record_sets" (RecordSpecification_codec m) RecordSpecification_default] 24 tl rb nm ev /\
  (forall v w, tl (rb v w) = w) /\ (forall v, tl v = snd (snd (snd (snd (snd (snd (snd v))))))).
Proof.
  do 4 eexists. split; [unfold SetRecordReliablePdu; cbn [cls_fields]; change 24%nat with (6 + (6 + (4 + (1 + (1 + (2 + (4 + 0)))))))%nat; px|].
  cbv beta. split; reflexivity.
Qed.
Definition ia_names : list string := ["originating_simulation_id"; "receiving_simulation_id"]%string.
Lemma ia_prefix : exists tl rb nm ev, prefix ia_names (cls_fields InformationOperationsActionPdu) [plain "io_records" StandardVariableSpecification_codec StandardVariableSpecification_default] 42 tl rb nm ev /\
  (forall v w, tl (rb v w) = w) /\ (forall v, tl v = snd (snd (snd (snd (snd (snd (snd (snd (snd (snd (snd v))))))))))) /\
  (forall v w, fst (rb (nm v) w) = drop_reference (fst v) /\ fst (snd (rb (nm v) w)) = drop_reference (fst (snd v))).
Proof.
  do 4 eexists. split; [unfold InformationOperationsActionPdu; cbn [cls_fields]; change 42%nat with (6 + (6 + (4 + (2 + (2 + (2 + (2 + (4 + (6 + (6 + (2 + 0)))))))))))%nat; px|].
  cbv beta. split; [reflexivity|]. split; [reflexivity|]. intros v w; split; reflexivity.
Qed.
Definition ir_names : list string := ["originating_simulation_id"]%string.
Lemma ir_prefix : exists tl rb nm ev, prefix ir_names (cls_fields InformationOperationsReportPdu) [plain "io_records" StandardVariableSpecification_codec StandardVariableSpecification_default] 26 tl rb nm ev /\
  (forall v w, tl (rb v w) = w) /\ (forall v, tl v = snd (snd (snd (snd (snd (snd (snd (snd v)))))))) /\
  (forall v w, fst (rb (nm v) w) = drop_reference (fst v)).
Proof.
  do 4 eexists. split; [unfold InformationOperationsReportPdu; cbn [cls_fields]; change 26%nat with (6 + (2 + (1 + (1 + (6 + (6 + (2 + (2 + 0))))))))%nat; px|].
  cbv beta. split; [reflexivity|]. split; [reflexivity|]. intros v w; reflexivity.
Qed.
Definition sf_names : list string := ["frozen_behavior"]%string.
Lemma sf_prefix : exists tl rb nm ev, prefix sf_names (cls_fields StopFreezePdu) [] 28 tl rb nm ev /\
  (forall v w, fst (snd (snd (snd (snd (rb (nm v) w))))) = flags_norm (fst (snd (snd (snd (snd v)))))).
Proof.
  do 4 eexists. split; [unfold StopFreezePdu; cbn [cls_fields]; change 28%nat with (6 + (6 + (8 + (1 + (1 + (2 + (4 + 0)))))))%nat; px|].
  intros v w; reflexivity.
Qed.
Lemma sfr_prefix : exists tl rb nm ev, prefix sf_names (cls_fields StopFreezeReliablePdu) [] 28 tl rb nm ev /\
  (forall v w, fst (snd (snd (snd (snd (rb (nm v) w))))) = flags_norm (fst (snd (snd (snd (snd v)))))).
Proof.
  do 4 eexists. split; [unfold StopFreezeReliablePdu; cbn [cls_fields]; change 28%nat with (6 + (6 + (8 + (1 + (1 + (1 + (1 + (4 + 0))))))))%nat; px|].
  intros v w; reflexivity.
Qed.
Definition ao_names : list string := ["general_object_appearance"; "object_location"]%string.
Lemma ao_prefix : exists tl rb nm ev, prefix ao_names (cls_fields ArealObjectStatePdu) [plain "object_location" (vec_codec WorldCoordinate_codec) []] 36 tl rb nm ev /\
  (forall v w, tl (rb v w) = w) /\ (forall v, tl v = snd (snd (snd (snd (snd (snd (snd (snd (snd (snd (snd v))))))))))) /\
  (forall v w, fst (snd (snd (snd (snd (snd (snd (snd (rb (nm v) w)))))))) = flags_norm (fst (snd (snd (snd (snd (snd (snd (snd v)))))))))  .
Proof.
  do 4 eexists. split; [unfold ArealObjectStatePdu; cbn [cls_fields]; change 36%nat with (6 + (6 + (2 + (1 + (1 + (4 + (4 + (2 + (2 + (4 + (4 + 0)))))))))))%nat; px|].
  cbv beta. split; [reflexivity|]. split; [reflexivity|]. intros v w; reflexivity.
Qed.
