(** * Aggregate states (C45). Vocabulary in [Spec], [SpecSpecial]. *)
From Verif Require Import Base BaseFacts EnumModel Enums EnumFacts Fixed Header HeaderFacts PduMacro PduMacroFacts
  DataTypes DataTypesFacts Bitflags BitflagsFacts Pdus PduFields Spec Wire RecordFacts PdusFacts ClassFacts PduProofs
  SpecDatum DatumFacts SpecSpecial SpecialFacts SpecialExtent SpecialAggregate.

(** The fields of an aggregate state after the four counts, as decoded from [bs]: no list
    elements, and the number of variable datums from bytes 132..135. *)
Definition aggregate_lists_skipped (bs : bytes) (p : pdu AggregateStatePdu) : Prop :=
  AggregateStatePdu_aggregate_id_list p = [] /\ AggregateStatePdu_entity_id_list p = [] /\
  AggregateStatePdu_padding p = [] /\ AggregateStatePdu_silent_aggregate_system_list p = [] /\
  AggregateStatePdu_silent_entity_system_list p = [] /\ AggregateStatePdu_variable_datum_list p = [] /\
  uval (AggregateStatePdu_number_of_variable_datum_records p) = be4_at bs 132.

Lemma ag_tail_fields (h : PduHeader) (b : values (cls_fields AggregateStatePdu)) n bs :
  snd (snd (snd (snd (snd (snd (snd (snd (snd (snd (snd (snd (snd (snd b))))))))))))) = ([], ([], ([], ([], ([], (n, ([], tt))))))) ->
  uval n = be4_at bs 132 -> aggregate_lists_skipped bs (mk_pdu h b).
Proof.
  intros W U. unfold aggregate_lists_skipped.
  assert (W1 : AggregateStatePdu_aggregate_id_list (mk_pdu h b) = []) by exact (f_equal (fun t : values ag_tail => fst t) W).
  assert (W2 : AggregateStatePdu_entity_id_list (mk_pdu h b) = []) by exact (f_equal (fun t : values ag_tail => fst (snd t)) W).
  assert (W3 : AggregateStatePdu_padding (mk_pdu h b) = []) by exact (f_equal (fun t : values ag_tail => fst (snd (snd t))) W).
  assert (W4 : AggregateStatePdu_silent_aggregate_system_list (mk_pdu h b) = []) by exact (f_equal (fun t : values ag_tail => fst (snd (snd (snd t)))) W).
  assert (W5 : AggregateStatePdu_silent_entity_system_list (mk_pdu h b) = []) by exact (f_equal (fun t : values ag_tail => fst (snd (snd (snd (snd t))))) W).
  assert (W6 : AggregateStatePdu_number_of_variable_datum_records (mk_pdu h b) = n) by exact (f_equal (fun t : values ag_tail => fst (snd (snd (snd (snd (snd t)))))) W).
  assert (W7 : AggregateStatePdu_variable_datum_list (mk_pdu h b) = []) by exact (f_equal (fun t : values ag_tail => fst (snd (snd (snd (snd (snd (snd t))))))) W).
  rewrite W1, W2, W3, W4, W5, W6, W7. auto 8.
Qed.
Lemma be_decode_be4 bs : (4 <= length bs)%nat -> be_decode (firstn 4 bs) = be4_at bs 0.
Proof.
  intros L. destruct bs as [|a [|b [|c [|d bs]]]]; [cbn in L; lia..|].
  unfold be4_at, byte_at, be_decode. cbn [firstn nth Nat.add be_decode_acc]. lia.
Qed.
Lemma ag_tail_at env bs : (136 <= length bs)%nat ->
  exists n, body_deserialize env ag_tail (skipn 132 bs) = Ok (([], ([], ([], ([], ([], (n, ([], tt))))))), skipn 136 bs) /\ uval n = be4_at bs 132.
Proof.
  intros L. destruct (ag_tail_decode env (skipn 132 bs)) as [n [D U]]; [rewrite skipn_length; lia|].
  exists n. rewrite skipn_add in D. split; [exact D|]. rewrite U, be_decode_be4, be4_at_skipn; [reflexivity|]. rewrite skipn_length; lia.
Qed.

(** Decoding any datagram of type 33: 136 bytes are read, whatever the counts say. *)
Theorem C45_aggregate_decode : forall bs, wire_type bs = 33 ->
  ((length bs < 136)%nat -> deserialize AggregateStatePdu bs = Panic Underflow) /\
  ((136 <= length bs)%nat -> exists p, deserialize AggregateStatePdu bs = Ok (ROk p, skipn 136 bs) /\ aggregate_lists_skipped bs p).
Proof.
  intros bs T. destruct ag_prefix as [tl [rb [nm [ev [P [Hrb Htl]]]]]]. split; intros L.
  - destruct (Nat.lt_ge_cases (length bs) 132) as [K|K]; [apply (special_short _ _ _ _ _ _ _ _ P); [exact K | exact T]|].
    destruct (special_deserialize _ _ _ _ _ _ _ _ P bs K T) as [h [v [_ D]]].
    rewrite D. rewrite ag_tail_short; [reflexivity|]. rewrite skipn_length. lia.
  - destruct (special_deserialize _ _ _ _ _ _ _ _ P bs ltac:(lia) T) as [h [v [_ D]]].
    destruct (ag_tail_at (ev v []) bs L) as [n [E U]]. change (12 + 120)%nat with 132%nat in D. rewrite E in D.
    eexists. split; [exact D|]. apply (ag_tail_fields h _ n bs); [|exact U]. rewrite <- Htl. apply Hrb.
Qed.

(** Bytes written for the lists of [p] before the count. *)
Lemma ag_tail_encode (v : values ag_tail) b : body_serialize ag_tail v = Ok b ->
  exists l1 l2 l3 l4 l5 l6, b = l1 ++ l2 ++ l3 ++ l4 ++ l5 ++ put_u32 (fst (snd (snd (snd (snd (snd v)))))) ++ l6 /\
    l1 = List.concat (map AggregateId_serialize (fst v)) /\
    (fst (snd v) = [] -> l2 = []) /\ (fst (snd (snd v)) = [] -> l3 = []) /\ (fst (snd (snd (snd v))) = [] -> l4 = []) /\
    (fst (snd (snd (snd (snd v)))) = [] -> l5 = []).
Proof.
  unfold ag_tail. cbn [cls_fields AggregateStatePdu skipn]. intros H.
  change (wapp (wconcat (map (fun a => Ok (AggregateId_serialize a)) (fst v))) (wapp (wconcat (map (c_ser EntityId_codec) (fst (snd v))))
    (wapp (wconcat (map (c_ser u8_codec) (fst (snd (snd v))))) (wapp (wconcat (map (c_ser EntityType_codec) (fst (snd (snd (snd v))))))
    (wapp (wconcat (map (c_ser EntityType_codec) (fst (snd (snd (snd (snd v)))))))
    (wapp (Ok (put_u32 (fst (snd (snd (snd (snd (snd v))))))))
    (wapp (wconcat (map (c_ser VariableDatumRecord_codec) (fst (snd (snd (snd (snd (snd (snd v))))))))) (Ok []))))))) = Ok b) in H.
  rewrite wconcat_Ok in H.
  apply wapp_ok in H as [l1 [r1 [E1 [H ->]]]]. apply wapp_ok in H as [l2 [r2 [E2 [H ->]]]]. apply wapp_ok in H as [l3 [r3 [E3 [H ->]]]].
  apply wapp_ok in H as [l4 [r4 [E4 [H ->]]]]. apply wapp_ok in H as [l5 [r5 [E5 [H ->]]]]. apply wapp_ok in H as [l6 [r6 [E6 [H ->]]]].
  apply wapp_ok in H as [l7 [r7 [E7 [H ->]]]].
  exists l1, l2, l3, l4, l5, (l7 ++ r7). injection E1 as <-.
  split; [|split; [reflexivity|]].
  - apply (f_equal (fun o => match o with Ok x => x | Panic _ => [] end)) in E6. cbv beta iota in E6. rewrite <- E6. reflexivity.
  - split; [|split; [|split]]; intros Z; [rewrite Z in E2 | rewrite Z in E3 | rewrite Z in E4 | rewrite Z in E5]; cbn in *; congruence.
Qed.

(** Decoding what was encoded: all fields before the lists survive, all lists are dropped, and
    the count is read from the first four bytes after the four counts. *)
Theorem C45_aggregate_roundtrip : forall p buf p' out rest,
  serialize AggregateStatePdu p buf = Ok (ROk tt, p', buf ++ out) ->
  exists q, deserialize AggregateStatePdu (out ++ rest) = Ok (ROk q, skipn 136 (out ++ rest)) /\
    same_except ["aggregate_id_list"; "entity_id_list"; "padding"; "silent_aggregate_system_list";
      "silent_entity_system_list"; "number_of_variable_datum_records"; "variable_datum_list"]%string q p' /\
    aggregate_lists_skipped (out ++ rest) q.
Proof.
  intros p buf p' out rest S. destruct ag_prefix as [tl [rb [nm [ev [P [Hrb Htl]]]]]].
  destruct (special_serialize _ _ _ _ _ _ _ _ _ _ _ _ P S) as [b2 [B2 [K2 [L2 [_ D]]]]]. specialize (D rest).
  change (12 + 120)%nat with 132%nat in *. set (bs := out ++ rest) in *.
  assert (K : skipn 132 bs = b2 ++ rest).
  { unfold bs. rewrite skipn_app, K2. replace (132 - length out)%nat with 0%nat by lia. reflexivity. }
  destruct (ag_tail_encode _ _ B2) as [l1 [l2 [l3 [l4 [l5 [l6 [E6 _]]]]]]].
  assert (L : (136 <= length bs)%nat).
  { unfold bs. rewrite app_length. assert (X1 : (length b2 = length out - 132)%nat) by (rewrite <- K2; apply skipn_length).
    assert (X2 := f_equal (@length byte) E6). rewrite !app_length in X2.
    match type of X2 with context [length (put_u32 ?x)] => assert (X3 : length (put_u32 x) = 4%nat) by apply put_uint_length end.
    rewrite X3 in X2. lia. }
  destruct (ag_tail_at (ev (nm (body p')) []) bs L) as [n [E U]]. rewrite <- K, E in D. eexists. split; [exact D|]. split.
  - split; [reflexivity|]. exact (keeps_reset _ _ _ _ _ _ _ _ P eq_refl (body p') _).
  - apply (ag_tail_fields _ _ n bs); [|exact U]. rewrite <- Htl. apply Hrb.
Qed.

Lemma be4_put (n : u32) r : be4_at (put_u32 n ++ r) 0 = uval n.
Proof.
  assert (Ln : length (put_u32 n) = 4%nat) by apply put_uint_length.
  destruct (get_u32_at (put_u32 n ++ r)) as [v [G U]]; [rewrite app_length; lia|].
  rewrite <- U. assert (G' : get_u32 (put_u32 n ++ r) = Ok (n, r)) by apply get_put_uint. rewrite G' in G. injection G as <-. reflexivity.
Qed.
Lemma be2_put (n : u16) r : be2_at (put_u16 n ++ r) 0 = uval n.
Proof.
  assert (Ln : length (put_u16 n) = 2%nat) by apply put_uint_length.
  destruct (get_u16_at (put_u16 n ++ r)) as [v [G U]]; [rewrite app_length; lia|].
  rewrite <- U. assert (G' : get_u16 (put_u16 n ++ r) = Ok (n, r)) by apply get_put_uint. rewrite G' in G. injection G as <-. reflexivity.
Qed.
Lemma be4_put2 (a b : u16) r : be4_at (put_u16 a ++ put_u16 b ++ r) 0 = 65536 * uval a + uval b.
Proof.
  assert (Z : forall bs, be4_at bs 0 = 65536 * be2_at bs 0 + be2_at (skipn 2 bs) 0).
  { intros bs. rewrite be2_at_skipn. unfold be4_at, be2_at. cbn [Nat.add]. lia. }
  rewrite Z, be2_put. assert (Ln : length (put_u16 a) = 2%nat) by apply put_uint_length.
  rewrite skipn_app, skipn_all2, Ln by lia. cbn [Nat.sub skipn app]. rewrite be2_put. reflexivity.
Qed.

(** The count is right when the lists before it are empty; with a non-empty first list it is
    made of the site and application numbers of the first aggregate id. *)
Theorem C45_count_decoded : forall p buf p' out rest q left,
  serialize AggregateStatePdu p buf = Ok (ROk tt, p', buf ++ out) ->
  deserialize AggregateStatePdu (out ++ rest) = Ok (ROk q, left) ->
  (AggregateStatePdu_aggregate_id_list p = [] -> AggregateStatePdu_entity_id_list p = [] -> AggregateStatePdu_padding p = [] ->
   AggregateStatePdu_silent_aggregate_system_list p = [] -> AggregateStatePdu_silent_entity_system_list p = [] ->
   AggregateStatePdu_number_of_variable_datum_records q = AggregateStatePdu_number_of_variable_datum_records p) /\
  (forall a l, AggregateStatePdu_aggregate_id_list p = a :: l ->
   uval (AggregateStatePdu_number_of_variable_datum_records q) =
     65536 * uval (AggregateId_site a) + uval (AggregateId_application a)).
Proof.
  intros p buf p' out rest q left S D.
  destruct (C45_aggregate_roundtrip p buf p' out rest S) as [q' [D' [_ [_ [_ [_ [_ [_ [_ U]]]]]]]]].
  rewrite D' in D. injection D as -> _.
  destruct ag_prefix as [tl [rb [nm [ev [P [Hrb Htl]]]]]].
  destruct (special_serialize _ _ _ _ _ _ _ _ _ _ _ _ P S) as [b2 [B2 [K2 [L2 _]]]].
  assert (Eb : body p' = body p).
  { destruct (serialize_ok _ _ _ _ _ S) as [_ [_ [_ [_ [E _]]]]]. rewrite E. apply no_len_prep. reflexivity. }
  change (12 + 120)%nat with 132%nat in *. set (bs := out ++ rest) in *.
  assert (K : skipn 132 bs = b2 ++ rest).
  { unfold bs. rewrite skipn_app, K2. replace (132 - length out)%nat with 0%nat by lia. reflexivity. }
  assert (V : be4_at bs 132 = be4_at (b2 ++ rest) 0) by (rewrite <- K, be4_at_skipn; reflexivity).
  rewrite V in U. rewrite Eb, Htl in B2.
  destruct (ag_tail_encode _ _ B2) as [l1 [l2 [l3 [l4 [l5 [l6 [E6 [E1 [E2 [E3 [E4 E5]]]]]]]]]]].
  assert (E1' : l1 = List.concat (map AggregateId_serialize (AggregateStatePdu_aggregate_id_list p))) by exact E1.
  assert (E2' : AggregateStatePdu_entity_id_list p = [] -> l2 = []) by exact E2.
  assert (E3' : AggregateStatePdu_padding p = [] -> l3 = []) by exact E3.
  assert (E4' : AggregateStatePdu_silent_aggregate_system_list p = [] -> l4 = []) by exact E4.
  assert (E5' : AggregateStatePdu_silent_entity_system_list p = [] -> l5 = []) by exact E5.
  assert (E6' : b2 = l1 ++ l2 ++ l3 ++ l4 ++ l5 ++ put_u32 (AggregateStatePdu_number_of_variable_datum_records p) ++ l6) by exact E6.
  clear E1 E2 E3 E4 E5 E6 B2. split.
  - intros Z1 Z2 Z3 Z4 Z5. rewrite Z1 in E1'. apply E2' in Z2. apply E3' in Z3. apply E4' in Z4. apply E5' in Z5.
    apply uint_eq. rewrite U, E6', E1', Z2, Z3, Z4, Z5. cbn [map List.concat app]. rewrite <- app_assoc. apply be4_put.
  - intros a l Z. rewrite U, E6', E1', Z. cbn [map List.concat]. unfold AggregateId_serialize at 1. rewrite <- !app_assoc. apply be4_put2.
Qed.

(** Hence the property is false: a list of one aggregate id makes the decoded count differ. *)
Theorem C45_count_refuted : exists p p' out q left,
  serialize AggregateStatePdu p [] = Ok (ROk tt, p', out) /\ deserialize AggregateStatePdu out = Ok (ROk q, left) /\
  uval (AggregateStatePdu_number_of_variable_datum_records p) = 0 /\
  uval (AggregateStatePdu_number_of_variable_datum_records q) = 65538.
Proof.
  pose (p0 := pdu_default AggregateStatePdu (as_u32 5)).
  pose (p := mk_pdu (c := AggregateStatePdu) (header p0) (let b := body p0 in (fst (b), (fst (snd b), (fst (snd (snd b)), (fst (snd (snd (snd b))), (fst (snd (snd (snd (snd b)))), (fst (snd (snd (snd (snd (snd b))))), (fst (snd (snd (snd (snd (snd (snd b)))))), (fst (snd (snd (snd (snd (snd (snd (snd b))))))), (fst (snd (snd (snd (snd (snd (snd (snd (snd b)))))))), (fst (snd (snd (snd (snd (snd (snd (snd (snd (snd b))))))))), (fst (snd (snd (snd (snd (snd (snd (snd (snd (snd (snd b)))))))))), (fst (snd (snd (snd (snd (snd (snd (snd (snd (snd (snd (snd b))))))))))), (fst (snd (snd (snd (snd (snd (snd (snd (snd (snd (snd (snd (snd b)))))))))))), (fst (snd (snd (snd (snd (snd (snd (snd (snd (snd (snd (snd (snd (snd b))))))))))))), ([mk_AggregateId (as_u16 1) (as_u16 2) (as_u16 3)], snd (snd (snd (snd (snd (snd (snd (snd (snd (snd (snd (snd (snd (snd (snd b))))))))))))))))))))))))))))))).
  assert (I : In AggregateStatePdu (all_pdus Checked)) by (apply (nth_error_In _ 10); reflexivity).
  exists p. assert (X : exists p' out, serialize AggregateStatePdu p [] = Ok (ROk tt, p', out)).
  { destruct (serialize_cases AggregateStatePdu p [] (all_prep_ok Checked _ I)) as [[L _]|[L [h' [_ E]]]].
    { exfalso. revert L. vm_compute. discriminate. }
    destruct (body_ser_total _ (all_ser_total Checked _ I eq_refl) (prep_body (cls_fields AggregateStatePdu) (body p))) as [fl W].
    rewrite W in E. eauto. }
  destruct X as [p' [out E]].
  exists p', out. destruct (C45_aggregate_roundtrip p [] p' out [] E) as [q [D _]]. rewrite app_nil_r in D.
  exists q, (skipn 136 out). split; [exact E|]. split; [exact D|]. split; [vm_compute; reflexivity|].
  assert (D0 : deserialize AggregateStatePdu (out ++ []) = Ok (ROk q, skipn 136 out)) by (rewrite app_nil_r; exact D).
  destruct (C45_count_decoded p [] p' out [] q _ E D0) as [_ H].
  rewrite (H (mk_AggregateId (as_u16 1) (as_u16 2) (as_u16 3)) [] eq_refl). reflexivity.
Qed.

(** What the theorems above rest on (one traversal for all of them; not part of the model). *)
Definition Prop_Aggregate_theorems : True :=
  let _ := @C45_aggregate_decode in
  let _ := @C45_aggregate_roundtrip in
  let _ := @C45_count_decoded in
  let _ := @C45_count_refuted in
  I.
Print Assumptions Prop_Aggregate_theorems.
