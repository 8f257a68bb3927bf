(** * Decoding of the classes that end with sized records (proofs only). *)
From Verif Require Import Base BaseFacts EnumModel Enums EnumFacts Header HeaderProofs PduMacro DataTypes Bitflags Pdus PduFields
  Spec SpecDatum SpecSpecial ClassFacts PduProofs Wire WireMaps WireProofs WireClass SpecFaults Prop_Faults SpecLayout TailFacts LayoutFacts RecLayoutFacts
  RecordFacts DatumFacts Prop_Relay
  SpecialFacts SpecialOthers Prop_Special Prop_Transmitter Prop_Aggregate Prop_Specs Prop_Needed DecodeFacts DecodeSpecial SpecDecode.
Lemma tail_decode m l (f : field) names n tl rb nm ev (get : pdu (pl_class l) -> f_type f) : In l (layouts m) ->
  prefix names (cls_fields (pl_class l)) [f] n tl rb nm ev -> f_len_attr f = None ->
  (forall h v w, get (mk_pdu h (rb v w)) = fst w) ->
  (forall p q : pdu (pl_class l), Forall (fun e => en_get e p = en_get e q) (pl_map l) -> get p = get q -> body p = body q) ->
  forall bs p rest, deserialize (pl_class l) bs = Ok (ROk p, rest) <->
    wire_type bs = code (cls_type (pl_class l)) /\ Forall (received bs p) (header_entries ++ pl_map l) /\ (12 + n <= length bs)%nat /\
    c_des (f_codec f) (skipn (12 + n) bs) = Ok (get p, rest).
Proof.
  intros I P A G Ag bs. assert (Ic := layout_class m l I). assert (Im := layout_map m l I).
  apply (determined (pl_class l) bs (wire_type bs = code (cls_type (pl_class l)) /\ (12 + n <= length bs)%nat /\ exists x r, c_des (f_codec f) (skipn (12 + n) bs) = Ok (x, r))).
  - intros p r (T & _ & L & D). eauto.
  - intros (T & L & x & r & D). destruct (special_deserialize _ _ _ _ _ _ _ _ P bs L T) as [h [v [_ E]]].
    rewrite (single_decode f _ _ _ _ A D) in E. eauto.
  - intros p r D. destruct (accept_type _ _ _ _ D) as [_ T].
    assert (L : (12 + n <= length bs)%nat).
    { destruct (Nat.lt_ge_cases (length bs) (12 + n)) as [K|K]; [rewrite (special_short _ _ _ _ _ _ _ _ P bs K T) in D; discriminate | exact K]. }
    split; [exact T|]. split; [apply Forall_app; split; [exact (header_received _ _ _ _ D) | exact (map_received m _ Im _ _ _ D)]|]. split; [exact L|].
    destruct (special_deserialize _ _ _ _ _ _ _ _ P bs L T) as [h [v [_ E]]]. rewrite E in D.
    destruct (body_deserialize _ _ _) as [[w r']|e] eqn:W; [|discriminate D]. apply single_decode_inv in W; [|exact A]. injection D as <- <-. rewrite G. exact W.
  - intros p r q s (_ & Rp & _ & Dp) (_ & Rq & _ & Dq). rewrite Dp in Dq. injection Dq as E ->. split; [|reflexivity].
    assert (K := received_agree _ _ _ _ Rp Rq). apply Forall_app in K. destruct K as [A1 A2].
    apply body_eq; [exact (header_entries_inj _ _ _ A1) | exact (Ag p q A2 E)].
Qed.
Lemma each_sent m l : Forall (element_exact m) l -> List.concat (map element_bytes l) = each element_sent l.
Proof.
  induction 1 as [|x l E _ IH]; [reflexivity|]. unfold each in *. cbn [map List.concat]. rewrite IH. f_equal.
  assert (S := element_ser_exact m x E). exact (element_wr m x _ S).
Qed.
Lemma number_put {k} (x : uint k) : number (put_uint x) = uval x.
Proof. rewrite put_be. unfold be. apply number_big_endian, uint_lt. Qed.
Lemma specification_iff m bs v rest : RecordSpecification_deserialize m bs = Ok (v, rest) <->
  (4 <= length bs)%nat /\ uval (RecordSpecification_number_of_record_sets v) = number (firstn 4 bs) /\
  skipn 4 bs = each element_sent (RecordSpecification_record_sets v) ++ rest /\ specification_exact m v.
Proof.
  split.
  - intros D. assert (X := specification_des_exact _ _ _ _ D).
    assert (B : bs = put_uint (RecordSpecification_number_of_record_sets v) ++ each element_sent (RecordSpecification_record_sets v) ++ rest).
    { unfold RecordSpecification_deserialize in D. read_inv D. injection D as <- <-. apply get_uint_inv in E.
      destruct (same_repeat _ _ _ _ _ (element_same m) _ _ _ E0) as [b [W [_ [-> _]]]].
      cbn [RecordSpecification_number_of_record_sets RecordSpecification_record_sets].
      assert (S := specification_ser_exact m _ (proj2 X)). unfold RecordSpecification_serialize in S. cbn [RecordSpecification_number_of_record_sets RecordSpecification_record_sets] in S.
      rewrite W in S. cbn [wapp] in S. injection S as S. rewrite <- (each_sent m) by exact (proj2 X). rewrite <- S. exact E. }
    assert (L : length (put_uint (RecordSpecification_number_of_record_sets v)) = 4%nat) by apply put_uint_length.
    split; [rewrite B, app_length; lia|]. split; [|split; [|exact X]].
    + rewrite B, firstn_app, L, Nat.sub_diag, firstn_O, app_nil_r, firstn_all2 by lia. symmetry. apply number_put.
    + rewrite B, skipn_app, L, Nat.sub_diag, skipn_all2 by lia. reflexivity.
  - intros (L & N & S & X).
    assert (K := specification_rt_exact m v rest X). rewrite (each_sent m) in K by exact (proj2 X). rewrite <- app_assoc, <- S in K.
    assert (F : put_u32 (RecordSpecification_number_of_record_sets v) = firstn 4 bs).
    { unfold put_u32. rewrite put_be. unfold be. rewrite N. transitivity (big_endian (length (firstn 4 bs)) (number (firstn 4 bs))); [|apply big_endian_number]. f_equal. rewrite firstn_length. lia. }
    rewrite F, firstn_skipn in K. exact K.
Qed.
Lemma variable_specification_iff bs v rest : StandardVariableSpecification_deserialize_field bs = Ok (v, rest) <->
  (2 <= length bs)%nat /\ uval (StandardVariableSpecification_number_of_standard_variable_records v) = number (firstn 2 bs) /\
  skipn 2 bs = each StandardVariableRecords_serialize (StandardVariableSpecification_standard_variable_records v) ++ rest /\
  counted_StandardVariableSpecification v.
Proof.
  change (StandardVariableSpecification_deserialize_field bs) with (StandardVariableSpecification_deserialize bs).
  split.
  - intros D. assert (X := StandardVariableSpecification_des_counted _ _ _ D).
    assert (B : bs = put_uint (StandardVariableSpecification_number_of_standard_variable_records v) ++
      each StandardVariableRecords_serialize (StandardVariableSpecification_standard_variable_records v) ++ rest).
    { unfold StandardVariableSpecification_deserialize in D. read_inv D. injection D as <- <-. apply get_uint_inv in E.
      destruct (same_repeat _ _ _ _ _ variable_record_same _ _ _ E0) as [b [W [_ [-> _]]]].
      cbn [StandardVariableSpecification_number_of_standard_variable_records StandardVariableSpecification_standard_variable_records].
      rewrite E. f_equal. f_equal. unfold each. clear - W. revert b W. induction x0 as [|a l IH]; intros b W; cbn [map wconcat List.concat] in *; [injection W as <-; reflexivity|].
      unfold wapp in W. destruct (wconcat _) as [c|] eqn:Q; [|discriminate W]. rewrite <- (IH c eq_refl).
      apply (f_equal (fun o => match o with Ok x => x | Panic _ => [] end)) in W. symmetry. exact W. }
    assert (L : length (put_uint (StandardVariableSpecification_number_of_standard_variable_records v)) = 2%nat) by apply put_uint_length.
    split; [rewrite B, app_length; lia|]. split; [|split; [|exact X]].
    + rewrite B, firstn_app, L, Nat.sub_diag, firstn_O, app_nil_r, firstn_all2 by lia. symmetry. apply number_put.
    + rewrite B, skipn_app, L, Nat.sub_diag, skipn_all2 by lia. reflexivity.
  - intros (L & N & S & X).
    assert (K := StandardVariableSpecification_rt v rest X). unfold StandardVariableSpecification_serialize in K. unfold each in S. rewrite <- app_assoc, <- S in K.
    assert (F : put_u16 (StandardVariableSpecification_number_of_standard_variable_records v) = firstn 2 bs).
    { unfold put_u16. rewrite put_be. unfold be. rewrite N. transitivity (big_endian (length (firstn 2 bs)) (number (firstn 2 bs))); [|apply big_endian_number]. f_equal. rewrite firstn_length. lia. }
    rewrite F, firstn_skipn in K. exact K.
Qed.
