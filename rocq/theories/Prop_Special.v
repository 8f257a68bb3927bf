(** * Classes with irregular fields: entity states (C28, C42).
    Vocabulary in [Spec], [SpecDatum], [SpecSpecial]. *)
From Verif Require Import Base BaseFacts EnumModel Enums EnumFacts Fixed Header HeaderFacts PduMacro PduMacroFacts
  DataTypes DataTypesFacts Bitflags BitflagsFacts Pdus PduFields Spec Wire RecordFacts PdusFacts ClassFacts PduProofs
  SpecDatum DatumFacts SpecSpecial SpecialFacts SpecialExtent SpecialDecode.

(** ** C28, C42: entity states *)

Lemma be_decode_be4 bs : (4 <= length bs)%nat -> be_decode (firstn 4 bs) = be4_at bs 0.
Proof.
  intros L. destruct bs as [|a [|b [|c [|d bs]]]]; [cbn in L; lia..|].
  unfold be4_at, byte_at, be_decode. cbn [firstn nth Nat.add be_decode_acc]. lia.
Qed.
Lemma skipn_cons (bs : bytes) n : (n < length bs)%nat -> exists b, skipn n bs = b :: skipn (S n) bs /\ uval b = byte_at bs n.
Proof.
  revert n. induction bs as [|x bs IH]; intros [|n] L; cbn in L; try lia.
  - exists x. split; reflexivity.
  - destruct (IH n) as [b [E U]]; [lia|]. exists b. split; [exact E | exact U].
Qed.
(** The tail of an entity state in a buffer. *)
Lemma es_tail_at env (bs : bytes) : (133 <= length bs)%nat ->
  exists mk caps, body_deserialize env es_tail (skipn 128 bs) = Ok ((mk, (caps, ([], tt))), skipn 133 bs) /\
    code (EntityMarking_entity_marking_character_set mk) = known EntityMarkingCharacterSet_spec (byte_at bs 128) /\
    decimal_of (N.of_nat (length bs) - 129) (EntityMarking_entity_marking_string mk) /\
    code caps = known EntityCapabilities_spec (be4_at bs 129).
Proof.
  intros L. destruct (skipn_cons bs 128) as [b [E U]]; [lia|]. rewrite E.
  destruct (es_tail_decode env b (skipn 129 bs)) as [cs [caps [D [C1 C2]]]]; [rewrite skipn_length; lia|].
  rewrite skipn_add in D. eexists _, caps. split; [exact D|].
  cbn [EntityMarking_entity_marking_character_set EntityMarking_entity_marking_string]. split; [rewrite C1, U; reflexivity|]. split.
  - assert (Z : N.of_nat (length bs) - 129 = lenN (skipn 129 bs)) by (unfold lenN; rewrite skipn_length; lia).
    rewrite Z. apply usize_to_string_decimal.
  - rewrite C2, be_decode_be4, be4_at_skipn; [reflexivity|]. rewrite skipn_length. lia.
Qed.

(** The encoding of the tail begins with the character set and has at least five bytes. *)
Lemma es_tail_encode (v : values es_tail) b : body_serialize es_tail v = Ok b ->
  exists b', b = as_u8 (code (EntityMarking_entity_marking_character_set (fst v))) :: b' /\ (4 <= length b')%nat.
Proof.
  unfold es_tail. cbn [cls_fields EntityStatePdu skipn]. intros H.
  change (wapp (Ok (EntityMarking_serialize (fst v))) (wapp (Ok (EntityCapabilities_serialize_field (fst (snd v))))
    (wapp (wconcat (map (c_ser VariableParameter_codec) (fst (snd (snd v))))) (Ok []))) = Ok b) in H.
  destruct (wconcat _) as [x|]; [|discriminate H]. apply (f_equal (fun o => match o with Ok x => x | Panic _ => [] end)) in H. cbn [wapp] in H. subst b.
  unfold EntityMarking_serialize. rewrite put_u8_single. cbn [app]. eexists. split; [reflexivity|].
  rewrite !app_length. unfold EntityCapabilities_serialize_field.
  assert (P := put_uint_length 4 (as_u32 (code (fst (snd v))))). change (@put_uint 4) with put_u32 in P. unfold lenN in *. lia.
Qed.

(** Decoding any datagram of type 1: 133 bytes are read whatever the length of the marking;
    the marking is the number of bytes after position 129, in decimal. *)
Theorem C28_entity_state_decode : forall bs, wire_type bs = 1 ->
  ((length bs < 133)%nat -> deserialize EntityStatePdu bs = Panic Underflow) /\
  ((133 <= length bs)%nat -> exists p, deserialize EntityStatePdu bs = Ok (ROk p, skipn 133 bs) /\
     code (EntityMarking_entity_marking_character_set (EntityStatePdu_entity_marking p)) =
       known EntityMarkingCharacterSet_spec (byte_at bs 128) /\
     decimal_of (N.of_nat (length bs) - 129) (EntityMarking_entity_marking_string (EntityStatePdu_entity_marking p)) /\
     code (EntityStatePdu_entity_capabilities p) = known EntityCapabilities_spec (be4_at bs 129) /\
     EntityStatePdu_articulation_parameter p = []).
Proof.
  intros bs T. destruct es_prefix as [tl [rb [nm [ev [P [Htl [Hrb _]]]]]]]. split; intros L.
  - destruct (Nat.lt_ge_cases (length bs) 128) as [K|K]; [apply (special_short _ _ _ _ _ _ _ _ P); [exact K | exact T]|].
    destruct (special_deserialize _ _ _ _ _ _ _ _ P bs K T) as [h [v [_ D]]].
    rewrite D. rewrite es_tail_short; [reflexivity|]. rewrite skipn_length. lia.
  - destruct (special_deserialize _ _ _ _ _ _ _ _ P bs ltac:(lia) T) as [h [v [_ D]]].
    destruct (es_tail_at (ev v []) bs L) as [mk [caps [E [C1 [C2 C3]]]]].
    change (12 + 116)%nat with 128%nat in D. rewrite E in D. exists (mk_pdu h (rb v (mk, (caps, ([], tt))))).
    split; [exact D|]. assert (W := Hrb v (mk, (caps, ([], tt)))). rewrite Htl in W.
    assert (W1 : EntityStatePdu_entity_marking (mk_pdu h (rb v (mk, (caps, ([], tt))))) = mk) by exact (f_equal (fun t : values es_tail => fst t) W).
    assert (W2 : EntityStatePdu_entity_capabilities (mk_pdu h (rb v (mk, (caps, ([], tt))))) = caps) by exact (f_equal (fun t : values es_tail => fst (snd t)) W).
    assert (W3 : EntityStatePdu_articulation_parameter (mk_pdu h (rb v (mk, (caps, ([], tt))))) = []) by exact (f_equal (fun t : values es_tail => fst (snd (snd t))) W).
    rewrite W1, W2, W3. auto.
Qed.

(** Decoding what was encoded: everything survives except the other dead-reckoning
    parameters (zeroed, C27), the marking string (replaced by a decimal number), the
    capabilities (read right after the character set, so from the marking string) and the
    articulation parameters (dropped). *)
Theorem C28_entity_state_roundtrip : forall p buf p' out rest,
  serialize EntityStatePdu p buf = Ok (ROk tt, p', buf ++ out) ->
  exists q, deserialize EntityStatePdu (out ++ rest) = Ok (ROk q, skipn 133 (out ++ rest)) /\
    same_except ["dead_reckoning_parameters"; "entity_marking"; "entity_capabilities"; "articulation_parameter"]%string q p' /\
    same_reckoning (EntityStatePdu_dead_reckoning_parameters q) (EntityStatePdu_dead_reckoning_parameters p') /\
    EntityMarking_entity_marking_character_set (EntityStatePdu_entity_marking q) = EntityMarking_entity_marking_character_set (EntityStatePdu_entity_marking p') /\
    decimal_of (N.of_nat (length (out ++ rest)) - 129) (EntityMarking_entity_marking_string (EntityStatePdu_entity_marking q)) /\
    code (EntityStatePdu_entity_capabilities q) = known EntityCapabilities_spec (be4_at (out ++ rest) 129) /\
    EntityStatePdu_articulation_parameter q = [].
Proof.
  intros p buf p' out rest S. destruct es_prefix as [tl [rb [nm [ev [P [Htl [Hrb Hdr]]]]]]].
  destruct (special_serialize _ _ _ _ _ _ _ _ _ _ _ _ P S) as [b2 [B2 [K2 [L2 [_ D]]]]]. specialize (D rest).
  change (12 + 116)%nat with 128%nat in *. set (bs := out ++ rest) in *.
  assert (K : skipn 128 bs = b2 ++ rest).
  { unfold bs. rewrite skipn_app, K2. replace (128 - length out)%nat with 0%nat by lia. reflexivity. }
  destruct (es_tail_encode _ _ B2) as [b3 [E3 L3]].
  assert (L : (133 <= length bs)%nat).
  { unfold bs. rewrite app_length. assert (X1 : (length b2 = length out - 128)%nat) by (rewrite <- K2; apply skipn_length).
    assert (X2 : (length b2 = 1 + length b3)%nat) by exact (f_equal (@length byte) E3). lia. }
  destruct (es_tail_at (ev (nm (body p')) []) bs L) as [mk [caps [E [C1 [C2 C3]]]]]. rewrite <- K, E in D.
  exists (mk_pdu (header p') (rb (nm (body p')) (mk, (caps, ([], tt))))).
  split; [exact D|]. assert (W := Hrb (nm (body p')) (mk, (caps, ([], tt)))). rewrite Htl in W.
  assert (W1 : EntityStatePdu_entity_marking (mk_pdu (header p') (rb (nm (body p')) (mk, (caps, ([], tt))))) = mk) by exact (f_equal (fun t : values es_tail => fst t) W).
  assert (W2 : EntityStatePdu_entity_capabilities (mk_pdu (header p') (rb (nm (body p')) (mk, (caps, ([], tt))))) = caps) by exact (f_equal (fun t : values es_tail => fst (snd t)) W).
  assert (W3 : EntityStatePdu_articulation_parameter (mk_pdu (header p') (rb (nm (body p')) (mk, (caps, ([], tt))))) = []) by exact (f_equal (fun t : values es_tail => fst (snd (snd t))) W).
  assert (W4 : EntityStatePdu_dead_reckoning_parameters (mk_pdu (header p') (rb (nm (body p')) (mk, (caps, ([], tt))))) =
     zero_other_parameters (EntityStatePdu_dead_reckoning_parameters p')) by exact (Hdr (body p') (mk, (caps, ([], tt)))).
  rewrite W1, W2, W3, W4. split; [|split; [|split]].
  - split; [reflexivity|]. exact (keeps_reset _ _ _ _ _ _ _ _ P eq_refl (body p') _).
  - repeat split.
  - apply enum_eq. rewrite C1.
    assert (Y : byte_at bs 128 = code (EntityMarking_entity_marking_character_set (EntityStatePdu_entity_marking p'))).
    { assert (Y : byte_at bs 128 = byte_at (skipn 128 bs) 0) by (rewrite byte_at_skipn; reflexivity).
      rewrite Y, K, E3. cbn [app]. unfold byte_at. cbn [nth]. rewrite Htl. apply as_uint_val. apply (enum_fits EntityMarkingCharacterSet_spec). }
    rewrite Y. unfold known. change (existsb (N.eqb ?n) ?l) with (memb n l). rewrite code_ok. reflexivity.
  - auto.
Qed.

(** C42 fails for entity states: the same 133 bytes decode differently depending on what
    follows them. *)
Theorem C42_entity_state_refuted : forall pre, length pre = 133%nat -> wire_type pre = 1 ->
  exists p q rest, deserialize EntityStatePdu pre = Ok (ROk p, []) /\ deserialize EntityStatePdu (pre ++ rest) = Ok (ROk q, rest) /\
    EntityStatePdu_entity_marking p <> EntityStatePdu_entity_marking q.
Proof.
  intros pre L T. assert (T' : wire_type (pre ++ [B 0]) = 1).
  { destruct pre as [|a [|b [|c pre]]]; [discriminate L..|]. exact T. }
  destruct (C28_entity_state_decode pre T) as [_ H]. destruct H as [p [D [_ [P _]]]]; [lia|].
  destruct (C28_entity_state_decode _ T') as [_ H]. destruct H as [q [D' [_ [Q _]]]]; [rewrite app_length; lia|].
  exists p, q, [B 0]. rewrite app_length, L in Q. rewrite L in P.
  split; [rewrite D, skipn_all2 by lia; reflexivity|]. split.
  - rewrite D', skipn_app, skipn_all2 by lia. rewrite L. reflexivity.
  - intros E. rewrite E in P. destruct P as [P _], Q as [Q _]. rewrite P in Q. discriminate Q.
Qed.
(** A concrete entity state: its encoding has 133 bytes and meets the hypotheses. *)
Example C28_entity_state_example :
  match serialize EntityStatePdu (pdu_default EntityStatePdu (as_u32 7)) [] with
  | Ok (ROk tt, p', out) => Some (length out, wire_type out) | _ => None end = Some (133%nat, 1).
Proof. vm_compute. reflexivity. Qed.

(** What the theorems above rest on (one traversal for all of them; not part of the model). *)
Definition Prop_Special_theorems : True :=
  let _ := @C28_entity_state_decode in
  let _ := @C28_entity_state_roundtrip in
  let _ := @C42_entity_state_refuted in
  I.
Print Assumptions Prop_Special_theorems.
