(** * Decoding the irregular parts of each special class (proofs only). *)
From Verif Require Import Base BaseFacts EnumModel Enums EnumFacts Fixed Header HeaderFacts PduMacro PduMacroFacts
  DataTypes DataTypesFacts Bitflags BitflagsFacts Pdus PduFields Spec Wire RecordFacts PdusFacts ClassFacts PduProofs
  SpecDatum DatumFacts SpecSpecial SpecialFacts.

Ltac open_fields := cbn [body_deserialize]; unfold field_deserialize; cbn [plain u8_field len_field f_len_attr f_codec c_des vec_codec option_codec].

Lemma marking_des b bs cs : enum_deserialize EntityMarkingCharacterSet_spec (b :: bs) = Ok (cs, bs) ->
  EntityMarking_deserialize (b :: bs) = Ok (mk_EntityMarking cs (usize_to_string (lenN bs)), bs).
Proof. intros D. exact (bind_ok _ _ _ (fun c => bind remaining (fun n => ret (mk_EntityMarking c (usize_to_string n)))) _ _ _ D). Qed.

(** EntityState: entity_marking, entity_capabilities, articulation_parameter. *)
Definition es_tail : list field := skipn 10 (cls_fields EntityStatePdu).
Lemma es_tail_decode env (b : byte) bs : (4 <= length bs)%nat ->
  exists cs caps, body_deserialize env es_tail (b :: bs) =
    Ok ((mk_EntityMarking cs (usize_to_string (lenN bs)), (caps, ([], tt))), skipn 4 bs) /\
    code cs = known EntityMarkingCharacterSet_spec (uval b) /\ code caps = known EntityCapabilities_spec (be_decode (firstn 4 bs)).
Proof.
  intros L. destruct (enum_deserialize_byte EntityMarkingCharacterSet_spec b bs eq_refl) as [cs [D C]].
  destruct (enum_deserialize_spec EntityCapabilities_spec bs L) as [caps [D2 C2]].
  exists cs, caps. split; [|split; [exact C | exact C2]].
  unfold es_tail. cbn [cls_fields EntityStatePdu skipn]. open_fields.
  cbn [EntityMarking_codec EntityCapabilities_codec c_des]. 
  refine (eq_trans (bind_ok _ _ _ _ _ _ _ (marking_des b bs cs D)) _). cbv beta.
  refine (eq_trans (bind_ok _ _ _ _ _ _ _ (bind_ok _ _ _ _ _ _ _ D2)) _). reflexivity.
Qed.
Lemma es_tail_short env bs : (length bs < 5)%nat -> body_deserialize env es_tail bs = Panic Underflow.
Proof.
  intros L. unfold es_tail. cbn [cls_fields EntityStatePdu skipn]. open_fields.
  cbn [EntityMarking_codec EntityCapabilities_codec c_des].
  destruct bs as [|b bs]; [reflexivity|].
  destruct (enum_deserialize_byte EntityMarkingCharacterSet_spec b bs eq_refl) as [cs [D C]].
  refine (eq_trans (bind_ok _ _ _ _ _ _ _ (marking_des b bs cs D)) _). cbv beta.
  apply bind_panic, bind_panic. unfold enum_deserialize. apply bind_panic, get_uint_short. cbn in *. lia.
Qed.
Definition es_names : list string := ["dead_reckoning_parameters"; "entity_marking"; "entity_capabilities"; "articulation_parameter"]%string.
Lemma es_prefix : exists tl rb nm ev, prefix es_names (cls_fields EntityStatePdu) es_tail 116 tl rb nm ev /\
  (forall v, tl v = snd (snd (snd (snd (snd (snd (snd (snd (snd (snd v)))))))))) /\
  (forall v w, tl (rb v w) = w) /\
  (forall v w, fst (snd (snd (snd (snd (snd (snd (snd (snd (snd (rb (nm v) w)))))))))) =
     zero_other_parameters (fst (snd (snd (snd (snd (snd (snd (snd (snd (snd v))))))))))).
Proof.
  do 4 eexists. split; [unfold es_tail, EntityStatePdu; cbn [cls_fields skipn]; change 116%nat with (6 + (1 + (1 + (8 + (8 + (12 + (24 + (12 + (4 + (40 + 0))))))))))%nat; px|].
  cbv beta. split; [reflexivity|]. split; [reflexivity|]. intros v w. reflexivity.
Qed.
