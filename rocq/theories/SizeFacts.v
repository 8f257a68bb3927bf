(** * Bytes emitted versus bytes declared, for all classes (proofs only). *)
From Verif Require Import Base BaseFacts EnumModel Enums EnumFacts Fixed Header HeaderFacts PduMacro PduMacroFacts
  DataTypes DataTypesFacts Bitflags BitflagsFacts Pdus PduFields Spec Wire RecordFacts PdusFacts ClassFacts PduProofs SpecDatum DatumFacts SpecSpecial SpecialFacts.

Definition codec_err {T} (c : codec T) (e : T -> Z) : Prop :=
  forall v b, c_ser c v = Ok b -> Z.of_N (lenN b) = (Z.of_N (c_len c v) + e v)%Z.
Definition body_err (fs : list field) (e : values fs -> Z) : Prop :=
  forall v b, body_serialize fs v = Ok b -> Z.of_N (lenN b) = (Z.of_N (body_len fs v) + e v)%Z.

Lemma be_ok f fs e : len_ok (f_codec f) -> body_err fs e -> body_err (f :: fs) (fun v => e (snd v)).
Proof.
  intros L H v b S. cbn [body_serialize body_len] in *. apply wapp_ok in S. destruct S as [x [y [Sx [Sy ->]]]].
  rewrite lenN_app, (L _ _ Sx). specialize (H _ _ Sy). lia.
Qed.
Lemma be_last f fs e : codec_err (f_codec f) e -> Forall (fun f => len_ok (f_codec f)) fs -> body_err (f :: fs) (fun v => e (fst v)).
Proof.
  intros H L v b S. cbn [body_serialize body_len] in *. apply wapp_ok in S. destruct S as [x [y [Sx [Sy ->]]]].
  rewrite lenN_app, (body_len_ok _ L _ _ Sy). specialize (H _ _ Sx). lia.
Qed.
Lemma vec_err {T} (c : codec T) e : codec_err c e -> codec_err (vec_codec c) (fun l => sumZ (map e l)).
Proof.
  intros H l. cbn [c_ser c_len vec_codec]. induction l as [|x l IH]; cbn [map wconcat sumN sumZ fold_right]; intros b S.
  - injection S as <-. reflexivity.
  - apply wapp_ok in S. destruct S as [x' [y [Sx [Sy ->]]]]. rewrite lenN_app. specialize (H _ _ Sx). specialize (IH _ Sy). 
    unfold sumZ in IH. lia.
Qed.

Lemma datum_err : codec_err VariableDatumRecord_codec (fun d => Z.of_N (datum_padding (uval (VariableDatumRecord_length_bits d)))).
Proof.
  intros v b S. cbn [c_ser c_len VariableDatumRecord_codec] in *. injection S as <-. rewrite datum_len. lia.
Qed.
Lemma grid_err : codec_err GridDataRecord_codec (fun _ => 2%Z).
Proof. intros v b S. cbn [c_ser c_len GridDataRecord_codec] in *. injection S as <-. rewrite GridDataRecord_len. lia. Qed.
Lemma marking_err : codec_err EntityMarking_codec (fun v => (Z.of_nat (length (EntityMarking_entity_marking_string v)) - 11)%Z).
Proof.
  intros v b S. cbn [c_ser c_len EntityMarking_codec] in *. injection S as <-. unfold EntityMarking_serialize.
  rewrite put_u8_single. unfold lenN. rewrite app_length. unfold EntityMarking_field_len, EntityMarking_LENGTH. cbn [length]. lia.
Qed.
Lemma element_err m v b : RecordSpecificationElement_serialize m v = Ok b ->
  Z.of_N (lenN b) = (Z.of_N (RecordSpecificationElement_field_len v) - element_dropped v)%Z.
Proof.
  rewrite element_serialize_spec. intros S.
  destruct (match m with Checked => _ | Wrapping => _ end); [|discriminate].
  destruct (N.leb_spec (element_product v mod 65536) (lenN (RecordSpecificationElement_record_values v))) as [L|L]; [|discriminate].
  apply (f_equal (fun o => match o with Ok x => x | Panic _ => [] end)) in S. cbv beta iota in S. rewrite <- S.
  refine (eq_trans (f_equal Z.of_N (lenN_app _ _ _)) _).
  assert (F : lenN (firstn (N.to_nat (element_product v mod 65536)) (RecordSpecificationElement_record_values v)) = element_product v mod 65536).
  { unfold lenN in *. rewrite firstn_length. lia. }
  unfold element_dropped, RecordSpecificationElement_field_len. rewrite vec_u8_len. cbn [c_len u32_codec u16_codec].
  assert (H : lenN (element_header v) = 12) by (unfold lenN; rewrite element_header_len; reflexivity). rewrite H.
  refine (eq_trans (f_equal (fun x => Z.of_N (12 + x)) F) _). unfold lenN in *. lia.
Qed.
Lemma specification_err m : codec_err (RecordSpecification_codec m) specification_excess.
Proof.
  intros v b S. cbn [c_ser c_len RecordSpecification_codec] in *. unfold RecordSpecification_serialize in S.
  apply wapp_ok in S. destruct S as [x [y [Sx [Sy ->]]]].
  assert (X : lenN x = 4) by (apply (f_equal (fun o => match o with Ok x => lenN x | Panic _ => 0 end)) in Sx; cbv beta iota in Sx; rewrite <- Sx; reflexivity).
  rewrite lenN_app, X.
  assert (V := vec_err (RecordSpecificationElement_codec m) (fun e => - element_dropped e)%Z).
  assert (E : codec_err (RecordSpecificationElement_codec m) (fun e => - element_dropped e)%Z).
  { intros e be Se. cbn [c_ser c_len RecordSpecificationElement_codec] in *. rewrite (element_err m e be Se). lia. }
  specialize (V E (RecordSpecification_record_sets v) y). cbn [c_ser vec_codec] in V. specialize (V Sy).
  unfold RecordSpecification_field_len, specification_excess.
  assert (N : forall l, sumZ (map (fun e => (- element_dropped e)%Z) l) = (- sumZ (map element_dropped l))%Z).
  { clear. induction l as [|a l IH]; cbn [map sumZ fold_right]; [reflexivity|]. unfold sumZ in IH. rewrite IH. lia. }
  rewrite N in V. lia.
Qed.

(** ** The 18 classes with a length error *)
Definition err_ok (x : length_error) : Prop := no_len_attr (cls_fields (projT1 x)) = true /\
  exists e, body_err (cls_fields (projT1 x)) e /\ forall p, projT2 x p = e (body p).
Ltac err_fields := cbn [cls_fields f_codec f_type plain u8_field len_field];
  first [ eapply be_last; [cbn [f_codec f_type plain]; first [ apply (vec_err _ _ datum_err) | apply (vec_err _ _ grid_err) | apply marking_err | apply specification_err ] | len_fields]
        | eapply be_ok; [cbn [f_codec f_type plain u8_field]; solve [eauto with lo nocore] | err_fields] ].
Lemma sum_twos (l : list GridDataRecord) : (2 * Z.of_nat (length l))%Z = sumZ (map (fun _ => 2%Z) l).
Proof. induction l as [|a l IH]; [reflexivity|]. cbn [length map sumZ fold_right] in *. unfold sumZ in IH. rewrite <- IH. lia. Qed.
Lemma all_err_ok m : Forall err_ok (length_errors m).
Proof.
  unfold length_errors.
  repeat (apply Forall_cons; [split; [reflexivity|]; eexists; split; [unfold err; cbn [projT1 projT2]; 
    match goal with |- body_err (cls_fields ?c) _ => let c' := match c with ?a _ => a | _ => c end in unfold c'; err_fields end
    | intros p; unfold err; cbn [projT2] ; try reflexivity] |]); try apply Forall_nil.
  apply sum_twos.
Qed.
Lemma emitted_err m x p buf p' out : In x (length_errors m) -> serialize (projT1 x) p buf = Ok (ROk tt, p', buf ++ out) ->
  Z.of_nat (length out) = (Z.of_N (uval (header_length (header p'))) + projT2 x p)%Z.
Proof.
  intros I S. assert (A := all_err_ok m). rewrite Forall_forall in A. destruct (A x I) as [NL [e [Be Eq]]].
  apply serialize_ok in S. destruct S as [bo [len [C [F [B1 [H1 O]]]]]]. apply app_inv_head in O. subst out.
  rewrite (no_len_prep _ _ NL) in *. apply Be in F. rewrite Eq.
  apply calc_ok in C. cbn [body] in C.
  rewrite H1. cbn [header_length set_length]. rewrite C. rewrite app_length, header_ser_length. unfold lenN in F.
  change PduHeader_LENGTH with 12. lia.
Qed.

