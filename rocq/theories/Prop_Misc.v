(** * Size helpers (C35) and variant-less enumerations (C44). *)
From Verif Require Import Base BaseFacts EnumModel Enums Header HeaderFacts PduMacro PduMacroFacts DataTypes Pdus PduFields Spec
  PdusFacts ClassFacts PduProofs SpecDatum SpecSpecial SizeFacts Prop_Pdu Prop_Size EmptyEnums.

(** ** C35 *)
Theorem C35_helpers : forall n,
  (validate_pdu_size n = true <-> n <= 8192) /\ total_pdu_size n = n + 12 /\ (validate_marking_length n = true <-> n <= 32).
Proof.
  intros n. unfold validate_pdu_size, validate_marking_length, total_pdu_size, MAX_PDU_SIZE_OCTETS, MAX_ENTITY_MARKING_LENGTH, PDU_HEADER_SIZE.
  rewrite !N.leb_le. split; [reflexivity|]. split; [lia | reflexivity].
Qed.
(** The same limit expressed in bits. *)
Theorem C35_bit_limit : forall n, validate_pdu_size n = true <-> n * BITS_PER_BYTE <= MAX_PDU_SIZE_BITS.
Proof. intros n. unfold validate_pdu_size, MAX_PDU_SIZE_OCTETS, MAX_PDU_SIZE_BITS, BITS_PER_BYTE. rewrite N.leb_le. lia. Qed.
(** [total_pdu_size] of the emitted body bytes is the size of what [serialize] emits. *)
Theorem C35_total_size : forall m c p buf p' out, In c (all_pdus m) -> serialize c p buf = Ok (ROk tt, p', buf ++ out) ->
  (12 <= length out)%nat /\ lenN out = total_pdu_size (lenN (skipn 12 out)).
Proof.
  intros m c p buf p' out I S. destruct (C07_serialize_appends_and_stamps m c p buf p' (buf ++ out) I S) as [len [fields [E _]]].
  apply app_inv_head in E. subst out. unfold lenN, total_pdu_size, PDU_HEADER_SIZE. rewrite skipn_app, !app_length, skipn_length, header_ser_length.
  cbn [Nat.sub skipn]. lia.
Qed.
(** Neither limit is enforced: a marking of any length is emitted ... *)
Definition marked (s : bytes) : pdu EntityStatePdu :=
  let v0 := body_default (cls_fields EntityStatePdu) in let v1 := snd v0 in let v2 := snd v1 in let v3 := snd v2 in let v4 := snd v3 in let v5 := snd v4 in let v6 := snd v5 in let v7 := snd v6 in let v8 := snd v7 in let v9 := snd v8 in let v10 := snd v9 in
  mk_pdu (c := EntityStatePdu) (PduHeader_default (as_u32 0))
    (fst v0, (fst v1, (fst v2, (fst v3, (fst v4, (fst v5, (fst v6, (fst v7, (fst v8, (fst v9, (mk_EntityMarking (enum_default EntityMarkingCharacterSet_spec) s, snd v10))))))))))).
Theorem C35_marking_not_enforced : forall s buf, exists p' out,
  EntityMarking_entity_marking_string (EntityStatePdu_entity_marking (marked s)) = s /\
  serialize EntityStatePdu (marked s) buf = Ok (ROk tt, p', buf ++ out) /\
  length out = (133 + length s)%nat /\ uval (header_length (header p')) = 144.
Proof.
  intros s buf. assert (I : In EntityStatePdu (all_pdus Checked)) by (apply (nth_error_In _ 5); reflexivity).
  destruct (serialize_cases EntityStatePdu (marked s) buf (all_prep_ok Checked _ I)) as [[L _]|[L [h' [St E]]]].
  { exfalso. revert L. vm_compute. discriminate. }
  destruct (body_ser_total _ (all_ser_total Checked _ I eq_refl) (prep_body (cls_fields EntityStatePdu) (body (marked s)))) as [fl W].
  rewrite W in E. eexists _, _. split; [reflexivity|]. split; [exact E|]. destruct St as [_ [_ [_ [_ [_ [_ [_ St]]]]]]]. cbn [header].
  rewrite St.
  assert (Z := emitted_err Checked (nth 0 (length_errors Checked) (err EntityStatePdu (fun _ => 0%Z))) (marked s) buf _ _ (or_introl eq_refl) E).
  cbn [header] in Z. rewrite St in Z.
  change (Z.of_nat (length (PduHeader_serialize h' ++ fl)) = (144 + (Z.of_nat (length s) - 11))%Z) in Z. split; [lia | vm_compute; reflexivity].
Qed.
(** ... and so is a PDU that [validate_pdu_size] rejects. *)
Theorem C35_size_not_enforced : exists p p' out, serialize SignalPdu p [] = Ok (ROk tt, p', out) /\ validate_pdu_size (lenN out) = false.
Proof.
  destruct C10_max_size_refuted as [p [p' [out [S L]]]]. exists p, p', out. split; [exact S|]. apply N.leb_gt. exact L.
Qed.
Example C35_example : validate_marking_length 33 = false /\ validate_pdu_size 8193 = false /\ total_pdu_size 100 = 112.
Proof. repeat split. Qed.

(** ** C44: an enumeration without variants can only panic, and these three do so at once *)
Theorem C44_always_panic : forall bs,
  (exists e, GriddedDataFieldNumber_deserialize bs = Panic e) /\
  (exists e, CivilianSubmarineSubcategories_deserialize bs = Panic e) /\
  (exists e, CivilianSubmersibleSubcategories_deserialize bs = Panic e).
Proof. intros bs. repeat split; eexists; reflexivity. Qed.
(** No implementation could do better. *)
Theorem C44_no_value : forall (r1 : reader GriddedDataFieldNumber) (r2 : reader CivilianSubmarineSubcategories)
    (r3 : reader CivilianSubmersibleSubcategories) bs,
  (exists e, r1 bs = Panic e) /\ (exists e, r2 bs = Panic e) /\ (exists e, r3 bs = Panic e).
Proof.
  intros r1 r2 r3 bs. split; [|split].
  - destruct (r1 bs) as [[[] _]|e]; eauto.
  - destruct (r2 bs) as [[[] _]|e]; eauto.
  - destruct (r3 bs) as [[[] _]|e]; eauto.
Qed.

(** What the theorems above rest on (one traversal for all of them; not part of the model). *)
Definition Prop_Misc_theorems : True :=
  let _ := @C35_helpers in
  let _ := @C35_bit_limit in
  let _ := @C35_total_size in
  let _ := @C35_marking_not_enforced in
  let _ := @C35_size_not_enforced in
  let _ := @C44_always_panic in
  let _ := @C44_no_value in
  I.
Print Assumptions Prop_Misc_theorems.
