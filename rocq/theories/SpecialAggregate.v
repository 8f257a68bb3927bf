(** * Decoding the irregular parts of aggregate states (proofs only). *)
From Verif Require Import Base BaseFacts EnumModel Enums EnumFacts Fixed Header HeaderFacts PduMacro PduMacroFacts
  DataTypes DataTypesFacts Bitflags BitflagsFacts Pdus PduFields Spec Wire RecordFacts PdusFacts ClassFacts PduProofs
  SpecDatum DatumFacts SpecSpecial SpecialFacts.

Ltac open_fields := cbn [body_deserialize]; unfold field_deserialize; cbn [plain u8_field len_field f_len_attr f_codec c_des vec_codec option_codec].

(** AggregateState: five lists, a count, a list. *)
Definition ag_tail : list field := skipn 14 (cls_fields AggregateStatePdu).
Definition ag_names : list string := ["aggregate_id_list"; "entity_id_list"; "padding"; "silent_aggregate_system_list";
  "silent_entity_system_list"; "number_of_variable_datum_records"; "variable_datum_list"]%string.
Lemma ag_prefix : exists tl rb nm ev, prefix ag_names (cls_fields AggregateStatePdu) ag_tail 120 tl rb nm ev /\
  (forall v w, tl (rb v w) = w) /\
  (forall v, tl v = snd (snd (snd (snd (snd (snd (snd (snd (snd (snd (snd (snd (snd (snd v)))))))))))))).
Proof.
  do 4 eexists. split; [unfold ag_tail, AggregateStatePdu; cbn [cls_fields skipn];
    change 120%nat with (6 + (1 + (1 + (8 + (4 + (32 + (12 + (12 + (24 + (12 + (2 + (2 + (2 + (2 + 0))))))))))))))%nat; px|].
  cbv beta. split; reflexivity.
Qed.
Lemma ag_tail_decode env bs : (4 <= length bs)%nat ->
  exists n, body_deserialize env ag_tail bs = Ok (([], ([], ([], ([], ([], (n, ([], tt))))))), skipn 4 bs) /\ uval n = be_decode (firstn 4 bs).
Proof.
  intros L. destruct (put_get_uint 4 bs L) as [n [D [_ U]]]. exists n. split; [|exact U].
  unfold ag_tail. cbn [cls_fields AggregateStatePdu skipn]. open_fields.
  unfold bind, ret. cbn [c_des u32_codec]. unfold get_u32. rewrite D. reflexivity.
Qed.
Lemma ag_tail_short env bs : (length bs < 4)%nat -> body_deserialize env ag_tail bs = Panic Underflow.
Proof.
  intros L. unfold ag_tail. cbn [cls_fields AggregateStatePdu skipn]. open_fields.
  unfold bind, ret. cbn [c_des u32_codec]. unfold get_u32. rewrite (get_uint_short 4 bs L). reflexivity.
Qed.
